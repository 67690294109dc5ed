(** Lemmas for statements added to earlier properties after mutation testing. *)
From Coq Require Import QArith Sorted.
From Verif Require Import Base.
From Verif Require GPSTimeModel BitstreamModel BitstreamSpec BitstreamProofs TimingModel TimingSpec TimingProofs
  AdcsModel AdcsSpec AdcsActProofs FaultModel FaultHandlerModel FaultHandlerSpec FaultHandlerProofs MissionModel MissionSpec MissionProofs ConsoleModel.
Local Open Scope Z_scope.

(** ** Times compared with a nanosecond count *)
Section GPS.
Import GPSTimeModel.
Lemma compare_count g t :
  (eq_n g t = true <-> g_set g = true /\ gtime_ns g = t) /\ (ne_n g t = true <-> ~ (g_set g = true /\ gtime_ns g = t)) /\
  (lt_n g t = true <-> g_set g = true /\ gtime_ns g < t) /\ (ge_n g t = true <-> ~ (g_set g = true /\ gtime_ns g < t)) /\
  (le_n g t = true <-> g_set g = true /\ gtime_ns g <= t) /\ (gt_n g t = true <-> ~ (g_set g = true /\ gtime_ns g <= t)).
Proof.
  unfold ge_n, le_n, gt_n, ne_n, eq_n, lt_n. destruct (g_set g).
  - destruct (Z.eqb_spec (gtime_ns g) t); destruct (Z.ltb_spec (gtime_ns g) t); cbn; repeat split; intros; try discriminate; try reflexivity; try lia; intuition lia.
  - cbn. repeat split; intros; try discriminate; try reflexivity; intuition discriminate.
Qed.
End GPS.

(** ** Slots of the flight computer's tasks *)
Section Slots.
Import TimingModel TimingSpec TimingProofs.
Lemma flight_slots cnt tasks t ts rs cnt' rest : map fst tasks = durations -> steady t ts ->
  control_cycle cnt tasks (t :: ts) = Some (rs, cnt', rest) ->
  Forall2 (fun s r => t + s <= tr_begin r)
    [1100; 7500; 22500; 50500; 66900; 76900; 81900; 82900; 83900; 84900; 85900; 95900; 100900; 128900; 129900; 159900; 169900] rs.
Proof.
  intros HM SD H. assert (HN : Forall (fun p => 0 <= fst p) tasks).
  { rewrite <- (Forall_map fst (fun x => 0 <= x)), HM. unfold durations. repeat (constructor; [lia|]). constructor. }
  pose proof (cycle_slots cnt tasks t ts rs cnt' rest SD HN) as C. rewrite HM in C. specialize (C ltac:(cbn; lia) H).
  cbn [slots durations] in C.
  do 17 (let X := fresh in inversion C as [|? ? ? ? X C']; subst; clear C; rename C' into C; constructor; [lia|]). inversion C. constructor.
Qed.
End Slots.

(** ** The rest of a stream appended to another *)
Section Streams.
Import BitstreamModel BitstreamSpec BitstreamProofs.
Lemma append_stream s o : wf_bs s -> wf_bs o -> (remaining o <= remaining s)%nat ->
  exists s' o', bs_write_bs o s = Some (s', o', remaining o) /\ remaining o' = 0%nat /\
    position s' = (position s + remaining o)%nat /\ bs_buf o' = bs_buf o /\
    all_bits s' = overwrite (all_bits s) (position s) (skipn (position o) (all_bits o)).
Proof.
  intros W WO H. assert (N : ((bs_len o - bs_byte o) * 8 - bs_bit o)%nat = remaining o).
  { rewrite remaining_len by assumption. unfold position. lia. }
  unfold bs_write_bs. rewrite N. destruct (editN_bs_fits s (remaining o) o W WO H (Nat.le_refl _)) as (b & E & _ & _ & C).
  do 2 eexists. split; [exact E|]. rewrite remaining_adv by assumption. rewrite at_pos_position. repeat split; [lia|].
  unfold all_bits at 1. cbn [at_pos bs_buf]. rewrite C. unfold rest. f_equal. apply firstn_all2. rewrite skipn_length. unfold remaining. lia.
Qed.
End Streams.

(** ** The attitude box *)
Section Adcs.
Import AdcsModel AdcsSpec AdcsActProofs.
Local Open Scope Z_scope.

Lemma says_who z r : o_ok (monitor z (answers r)) = true.
Proof. reflexivity. Qed.

Lemma code_volts c : (adc_volt c == (2 # 1000) * inject_Z c)%Q.
Proof. unfold adc_volt. field. Qed.

Lemma step_ramp h (w : Q) i h' :
  (if Qlt_le_dec w 0 then option_map (wheel_set h i (-2000)) (uc (- w) 0 max_torque)
   else option_map (wheel_set h i 2000) (uc w 0 max_torque)) = Some h' ->
  exists r s, uc (if Qlt_le_dec w 0 then - w else w) 0 max_torque = Some r /\ h' = wheel_set h i s r.
Proof.
  destruct (Qlt_le_dec w 0); match goal with |- option_map _ ?x = _ -> _ => destruct x as [r|] end; cbn [option_map];
    intros X; try discriminate X; injection X as <-; do 2 eexists; split; reflexivity.
Qed.

Definition turn (h : hw) (j : nat) : hw := if fn h (7 + j)%nat then wheel_actuate h j else h.
Lemma turn_keeps h j : fn (turn h j) = fn h /\ wrmp (turn h j) = wrmp h /\ pot (turn h j) = pot h /\
  forall i, rdac (turn h j) i = if (i =? j)%nat && fn h (7 + j)%nat then wrmp h j else rdac h i.
Proof.
  unfold turn. destruct (fn h (7 + j)%nat); [|repeat split; intros; rewrite Bool.andb_false_r; reflexivity].
  unfold wheel_actuate. match goal with |- context[if ?b then _ else _] => destruct b end; repeat split; intros; cbn; unfold fup;
    rewrite Bool.andb_true_r; reflexivity.
Qed.
Lemma turns h : wheels_actuate h = turn (turn (turn h 0) 1) 2.
Proof. reflexivity. Qed.
Lemma acts_ramp h i : (i < 3)%nat -> fn h (7 + i)%nat = true -> rdac (wheels_actuate h) i = wrmp h i /\ pot (wheels_actuate h) = pot h.
Proof.
  intros Hi F. rewrite turns. destruct (turn_keeps h 0) as (A1 & A2 & A3 & A4), (turn_keeps (turn h 0) 1) as (B1 & B2 & B3 & B4),
    (turn_keeps (turn (turn h 0) 1) 2) as (C1 & C2 & C3 & C4).
  rewrite C3, B3, A3, C4, B4, A4, B2, A2, B1, A1. split; [|reflexivity].
  destruct i as [|[|[|i]]]; [| | |lia]; cbn [Nat.eqb andb Nat.add] in *; rewrite F; reflexivity.
Qed.

Lemma torque_ramp e c h h' i : (i < 3)%nat -> fn h 6%nat = true -> fn h (7 + i)%nat = true -> rwa_actuate e 2 c h = Some h' ->
  let t := vnth (body_to_rwa c) i in
  (e_pot e = false -> pot h' = pot h) /\
  (e_pot e = true -> uc (if Qlt_le_dec t 0 then - t else t) 0 max_torque = Some (pot h' i)).
Proof.
  intros Hi P F. unfold rwa_actuate. change (2 =? 2) with true. cbv iota. rewrite P. cbn [negb]. cbv zeta.
  remember (body_to_rwa c) as w. clear Heqw c.
  match goal with |- option_map _ ?x = _ -> _ => destruct x as [h3|] eqn:E end; cbn [option_map]; [|discriminate].
  intros X; assert (EX : h' = pot_write e (wheels_actuate h3)) by congruence; clear X.
  cbn [fold_left obind] in E.
  destruct (if Qlt_le_dec (vnth w 0) 0 then _ else _) as [h1|] eqn:E1; [|cbn in E; discriminate]. cbn [obind] in E.
  destruct (if Qlt_le_dec (vnth w 1) 0 then _ else _) as [h2|] eqn:E2 in E; [|cbn in E; discriminate]. cbn [obind] in E.
  apply step_ramp in E1, E2, E. destruct E1 as (r1 & s1 & U1 & ->), E2 as (r2 & s2 & U2 & ->), E as (r3 & s3 & U3 & ->).
  remember (wheel_set (wheel_set (wheel_set h 0 s1 r1) 1 s2 r2) 2 s3 r3) as g eqn:G.
  assert (FG : fn g = fn h) by (subst g; reflexivity).
  assert (RG : uc (if Qlt_le_dec (vnth w i) 0 then - vnth w i else vnth w i) 0 max_torque = Some (wrmp g i)).
  { subst g. destruct i as [|[|[|i]]]; [| | |lia]; cbn; assumption. }
  assert (FI : fn g (7 + i)%nat = true) by (rewrite FG; exact F).
  destruct (acts_ramp g i Hi FI) as [AR AP].
  assert (PG : pot (wheels_actuate g) = pot h) by (rewrite AP; subst g; reflexivity).
  subst h'. unfold pot_write. split; intros ->; [exact PG|].
  rewrite RG. f_equal. symmetry. change (pot (hw_pot (wheels_actuate g) (rdac (wheels_actuate g))) i) with (rdac (wheels_actuate g) i). exact AR.
Qed.
End Adcs.

(** ** The wheels' supply is switched on a cycle before the wheels are used *)
Section Mission.
Import FaultModel FaultHandlerModel FaultHandlerSpec FaultHandlerProofs MissionModel MissionSpec MissionProofs.
Local Open Scope Z_scope.

Lemma detumble_exec i w : wmission w = m_detumble -> ~ response_safehold w -> mission_execute i w =
  Some (dispatch_detumble i (with_h w (fst (main_execute main_machines (wh w))))).
Proof.
  intros S N. unfold mission_execute. rewrite S. change (negb ((m_detumble =? m_startup) || (m_detumble =? m_manual))) with true.
  destruct (main_execute main_machines (wh w)) as [h r] eqn:X. cbn [fst]. cbv iota. destruct r; try reflexivity.
  exfalso. apply N, main_safehold. rewrite X. reflexivity.
Qed.

Lemma slowed_down i w : wmission w = m_detumble -> ~ response_safehold w ->
  exists w', mission_execute i w = Some w' /\
    (i_att_valid i = true -> i_slow i = true -> mm_adcs_dcdc (wm w') = true /\
      if mm_adcs_dcdc (wm w) then wmission w' = m_standby /\ mm_adcs (wm w') = a_point_standby else wmission w' = m_detumble) /\
    (~ (i_att_valid i = true /\ i_slow i = true) -> wmission w' = m_detumble /\ wm w' = wm w).
Proof.
  intros S N. rewrite (detumble_exec i w S N). eexists. split; [reflexivity|]. unfold dispatch_detumble.
  assert (M : wmission (with_h w (fst (main_execute main_machines (wh w)))) = m_detumble).
  { destruct (main_same (wh w)) as (_ & B & _). unfold wmission, with_h in *. cbn [wh]. rewrite B. exact S. }
  split.
  - intros -> ->. cbn [andb]. change (wm (with_h w (fst (main_execute main_machines (wh w))))) with (wm w).
    destruct (mm_adcs_dcdc (wm w)) eqn:D; cbn [negb]; [|split; [reflexivity|exact M]].
    split; [|split; reflexivity]. exact D.
  - intros X. destruct (i_att_valid i), (i_slow i); cbn [andb]; try (exfalso; apply X; auto; fail); split; try exact M; reflexivity.
Qed.
End Mission.

(** ** The debug console *)
Section Console.
Import ConsoleModel.
Local Open Scope Z_scope.

(** what can be wrong with a message that names a field: the mode announced and the error reported *)
Inductive wrong (buf : ConsoleModel.text) (known : ConsoleModel.text -> option cfield) (n : ConsoleModel.text) (d : jdoc) : cmode -> cerror -> Prop :=
| no_mode : j_mode d = JNull -> wrong buf known n d Unspecified MissingMode
| mode_no_number : j_mode d <> JNull -> (forall z, 0 <= z < 256 -> j_mode d <> JNum z) -> wrong buf known n d Unspecified InvalidModeNotChar
| mode_unknown z : j_mode d = JNum z -> 0 <= z < 256 -> z <> 114 -> z <> 119 -> z <> 117 -> wrong buf known n d ReadMode InvalidMode
| read_unknown : j_mode d = JNum 114 -> known n = None -> wrong buf known n d ReadMode InvalidFieldName
| write_nothing : j_mode d = JNum 119 -> j_val d = JNull -> wrong buf known n d WriteMode MissingFieldVal
| write_unknown : j_mode d = JNum 119 -> j_val d <> JNull -> known n = None -> wrong buf known n d WriteMode InvalidFieldName
| write_refused f v : j_mode d = JNum 119 -> known n = Some f -> as_cstr buf (j_val d) = Some (Some v) -> cf_read f v = None ->
    wrong buf known n d WriteMode InvalidFieldVal.

Lemma refused_with_reason pl buf i d c n m e : as_cstr buf (j_field d) = Some (Some n) -> wrong buf (find_cf (c_reg c)) n d m e ->
  do_message pl buf i d c = Some (mk_con (c_reg c) (c_mt c) (c_len c) (c_out c ++ [RError (Some n) m e]), i).
Proof.
  intros F W. assert (NF : is_null (j_field d) = false) by (destruct (j_field d); [discriminate F|reflexivity..]).
  unfold do_message. rewrite NF, Bool.andb_false_r, F.
  destruct W as [M|M M'|z M R A B C|M K|M V|M V K|f v M K V R].
  - rewrite M. reflexivity.
  - destruct (j_mode d) as [|k a|z|a]; [contradiction|reflexivity| |reflexivity]. cbn [is_null is_uchar].
    destruct ((0 <=? z) && (z <? 256)) eqn:E; [exfalso; apply (M' z); [lia|reflexivity]|reflexivity].
  - rewrite M. cbn [is_null is_uchar as_uchar number]. replace ((0 <=? z) && (z <? 256)) with true by lia. cbn [negb]. unfold as_uchar. cbn [number].
    replace ((0 <=? z) && (z <? 256)) with true by lia.
    replace (z =? 114) with false by lia. replace (z =? 119) with false by lia. replace (z =? 117) with false by lia. reflexivity.
  - rewrite M. cbn. rewrite K. reflexivity.
  - rewrite M, V. reflexivity.
  - rewrite M. cbn. assert (X : is_null (j_val d) = false) by (destruct (j_val d); [contradiction|reflexivity..]). rewrite X, K. reflexivity.
  - rewrite M. cbn. assert (X : is_null (j_val d) = false) by (destruct (j_val d); [discriminate V|reflexivity..]). rewrite X, K, V, R. reflexivity.
Qed.
End Console.
