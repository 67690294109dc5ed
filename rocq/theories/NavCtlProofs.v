From Verif Require Import Base GPSTimeModel NavModel NavSpec NavProofs.

Section P.
Context (G : gnc) (epoch : Z).
Notation after := (after G epoch).
Notation nav_step := (nav_step G epoch).
Implicit Types (s : nav G) (i : nin G) (h : list (nin G)).

(** ** magnetometers *)
Lemma att_b s i :
  a_bvalid G (v_a G (nav_step s i)) = n_mag1_ok G i || n_mag2_ok G i /\ a_slip G (v_a G (nav_step s i)) = n_mtr G i /\
  (n_mag1_ok G i || n_mag2_ok G i = true ->
   a_b G (v_a G (nav_step s i)) =
   if n_prefer1 G i then (if n_mag1_ok G i then mag1_offset G (n_mag1 G i) (a_slip G (v_a G s)) else mag2_offset G (n_mag2 G i) (a_slip G (v_a G s)))
   else (if n_mag2_ok G i then mag2_offset G (n_mag2 G i) (a_slip G (v_a G s)) else mag1_offset G (n_mag1 G i) (a_slip G (v_a G s)))).
Proof.
  unfold NavModel.nav_step. cbn [v_a]. unfold att_step. cbv zeta.
  destruct (_ || written _ _).
  - cbn. repeat split. intros B. rewrite B. reflexivity.
  - destruct (if as_ok G _ then _ else _) as [st est]. destruct (ae_ok G est); cbn; (repeat split; intros B; rewrite B; reflexivity).
Qed.
Lemma slip_before h : a_slip G (v_a G (after h)) = rods_before h.
Proof.
  destruct h as [|i h _] using rev_ind; [reflexivity|]. rewrite after_snoc. unfold rods_before. rewrite rev_app_distr. cbn. apply att_b.
Qed.
Lemma magnetometer h i :
  let a := v_a G (after (h ++ [i])) in
  (a_bvalid G a = true <-> n_mag1_ok G i = true \/ n_mag2_ok G i = true) /\
  (n_mag1_ok G i = true -> n_prefer1 G i = true \/ n_mag2_ok G i = false -> a_b G a = mag1_offset G (n_mag1 G i) (rods_before h)) /\
  (n_mag2_ok G i = true -> n_prefer1 G i = false \/ n_mag1_ok G i = false -> a_b G a = mag2_offset G (n_mag2 G i) (rods_before h)).
Proof.
  cbv zeta. rewrite after_snoc. destruct (att_b (after h) i) as (V & _ & B). rewrite slip_before in B. rewrite V. split; [apply orb_true_iff|].
  split; intros M P; rewrite B by (rewrite M; auto using orb_true_r); rewrite M; destruct P as [P|P]; rewrite P; try reflexivity.
  - destruct (n_prefer1 G i); reflexivity.
  - destruct (n_prefer1 G i); reflexivity.
Qed.
(** an unusable attitude is reported in every cycle it lasts *)
Lemma alarm_step s i : a_alarm G (v_a G (nav_step s i)) = negb (a_valid G (v_a G (nav_step s i))).
Proof.
  unfold NavModel.nav_step. cbn [v_a]. unfold att_step. cbv zeta. destruct (_ || written _ _); [reflexivity|].
  destruct (if as_ok G _ then _ else _) as [st est]. destruct (ae_ok G est); reflexivity.
Qed.
Lemma alarm h i : a_alarm G (v_a G (after (h ++ [i]))) = negb (a_valid G (v_a G (after (h ++ [i])))).
Proof. rewrite after_snoc. apply alarm_step. Qed.

(** ** actuators *)
Lemma ctl_cases s i :
  let c0 := v_c G s in
  let c := mk_cst G (c_cur1 G c0) (c_cur2 G c0) (written (c_des1 G c0) (n_des1 G i)) (written (c_des2 G c0) (n_des2 G i)) (c_t G c0) (c_m G c0) (c_dst G c0) (c_pst G c0) in
  let n := nav_step s i in
  let a := v_a G n in
  v_c G n =
  if (n_adcs G i =? 5) || (n_adcs G i =? 2) then run_detumble G a (no_actuation G c)
  else if (n_adcs G i =? 7) || (n_adcs G i =? 8) then
    run_pointing G a (n_wheels G i) (objectives G (v_t G n) (v_o G n) (v_r G n) a (n_adcs G i) (no_objectives G (no_actuation G c)))
  else if (n_adcs G i =? 6) || (n_adcs G i =? 0) then run_pointing G a (n_wheels G i) c
  else if (n_adcs G i =? 1) || (n_adcs G i =? 3) || (n_adcs G i =? 4) then no_actuation G c
  else c.
Proof. reflexivity. Qed.

Lemma no_act_finite c : finite_cmd (no_actuation G c).
Proof. split; apply fin_zero. Qed.
Lemma detumble_finite a c : finite_cmd c -> finite_cmd (run_detumble G a c).
Proof.
  intros [T M]. unfold run_detumble. destruct (a_bvalid G a); [|split; assumption]. destruct (detumble G _ _) as [d m].
  split; cbn [c_t c_m]; [exact T|]. destruct (vfin G m) eqn:E; assumption.
Qed.
Lemma pointing_finite a w c : finite_cmd c -> finite_cmd (run_pointing G a w c).
Proof.
  intros [T M]. unfold run_pointing. destruct (_ && vfin G (c_cur2 G c)); [|split; assumption].
  destruct (pointing G _ _ _ _ _ _ _ _) as [p [m rw]]. cbv zeta.
  destruct (vfin G m) eqn:E1; destruct (vfin G (vneg G rw)) eqn:E2; split; cbn; assumption.
Qed.
Lemma objectives_same t o r a st c : c_t G (objectives G t o r a st c) = c_t G c /\ c_m G (objectives G t o r a st c) = c_m G c.
Proof.
  unfold objectives. destruct (_ && _); [|split; reflexivity]. destruct (hill G _ _ _ _) as [[[x y] z]|]; [|split; reflexivity]. cbv zeta.
  destruct (st =? _); [split; reflexivity|]. destruct (_ && _); split; reflexivity.
Qed.
Lemma ctl_finite s i : finite_cmd (v_c G s) -> finite_cmd (v_c G (nav_step s i)).
Proof.
  intros F. rewrite ctl_cases. cbv zeta.
  destruct (_ || (n_adcs G i =? 2)); [apply detumble_finite, no_act_finite|].
  destruct (_ || (n_adcs G i =? 8)).
  { apply pointing_finite. unfold finite_cmd. rewrite (proj1 (objectives_same _ _ _ _ _ _)), (proj2 (objectives_same _ _ _ _ _ _)).
    split; apply fin_zero. }
  destruct (_ || (n_adcs G i =? 0)); [apply pointing_finite; exact F|].
  destruct (_ || (n_adcs G i =? 4)); [apply no_act_finite|exact F].
Qed.
Lemma always_finite h : finite_cmd (v_c G (after h)).
Proof.
  induction h as [|i h IH] using rev_ind; [split; apply fin_zero|]. rewrite after_snoc. apply ctl_finite. exact IH.
Qed.

Lemma pointing_off a w c : a_valid G a = false \/ a_bvalid G a = false \/ vfin G (c_cur1 G c) = false \/ vfin G (c_des1 G c) = false -> run_pointing G a w c = c.
Proof.
  intros H. unfold run_pointing. replace (_ && vfin G (c_cur2 G c)) with false; [reflexivity|].
  destruct H as [H|[H|[H|H]]]; rewrite H; rewrite ?andb_false_r; cbn; rewrite ?andb_false_r; reflexivity.
Qed.

(** no attitude, no torque: all modes but the two manual ones *)
Lemma still_without_attitude h i : 1 <= n_adcs G i <= 8 -> n_adcs G i <> 6 ->
  a_valid G (v_a G (after (h ++ [i]))) = false ->
  c_t G (v_c G (after (h ++ [i]))) = vzero G /\ (n_adcs G i <> 2 -> n_adcs G i <> 5 -> c_m G (v_c G (after (h ++ [i]))) = vzero G) /\
  (a_bvalid G (v_a G (after (h ++ [i]))) = false -> c_m G (v_c G (after (h ++ [i]))) = vzero G).
Proof.
  intros R N6 V. rewrite after_snoc in *. rewrite ctl_cases. cbv zeta.
  destruct ((n_adcs G i =? 5) || (n_adcs G i =? 2)) eqn:E1.
  { unfold run_detumble. destruct (a_bvalid G _) eqn:B.
    - destruct (detumble G _ _) as [d m]. cbn. split; [reflexivity|]. split; [intros; lia|discriminate].
    - cbn. repeat split. }
  destruct ((n_adcs G i =? 7) || (n_adcs G i =? 8)) eqn:E2.
  { rewrite pointing_off by (left; exact V). rewrite (proj1 (objectives_same _ _ _ _ _ _)), (proj2 (objectives_same _ _ _ _ _ _)). cbn. repeat split. }
  destruct ((n_adcs G i =? 6) || (n_adcs G i =? 0)) eqn:E3; [lia|].
  destruct ((n_adcs G i =? 1) || (n_adcs G i =? 3) || (n_adcs G i =? 4)) eqn:E4; [|lia]. cbn. repeat split.
Qed.

(** docking needs to know where the other satellite is *)
Lemma docking_still h i : n_adcs G i = 8 -> r_state G (v_r G (after (h ++ [i]))) = 0 -> still (v_c G (after (h ++ [i]))).
Proof.
  intros A R. rewrite after_snoc in *. unfold still. rewrite ctl_cases. cbv zeta. rewrite A. cbn [Z.eqb Pos.eqb orb].
  assert (E : forall t o a c, objectives G t o (v_r G (nav_step (after h) i)) a 8 c = c).
  { intros t o a c. unfold objectives. destruct (_ && _); [|reflexivity]. destruct (hill G _ _ _ _) as [[[x y] z]|]; [|reflexivity]. cbv zeta.
    rewrite R. cbn. rewrite fin_nan. reflexivity. }
  rewrite E. rewrite pointing_off by (right; right; left; apply fin_nan). split; reflexivity.
Qed.
Lemma docking_points h i : n_adcs G i = 8 ->
  let s := after (h ++ [i]) in
  let dr := to_body G (t_ns (v_t G s)) (a_q G (v_a G s)) (r_rpos G (v_r G s)) in
  a_valid G (v_a G s) = true -> r_state G (v_r G s) <> 0 -> vfin G dr = true ->
  forall r_hat v_hat n_hat, hill G (t_ns (v_t G s)) (o_pos G (v_o G s)) (o_vel G (v_o G s)) (a_q G (v_a G s)) = Some (r_hat, v_hat, n_hat) ->
  c_cur1 G (v_c G s) = face_docking G /\ c_des1 G (v_c G s) = vunit G dr /\ c_cur2 G (v_c G s) = face_antenna G /\ c_des2 G (v_c G s) = r_hat.
Proof.
  intros A. cbv zeta. intros V R F r_hat v_hat n_hat Hh.
  destruct (after_chain G epoch (h ++ [i])) as (C1 & _ & C3). specialize (C3 V). specialize (C1 C3).
  rewrite after_snoc in *. rewrite ctl_cases. cbv zeta. rewrite A. cbn [Z.eqb Pos.eqb orb].
  match goal with |- context [run_pointing G _ _ ?c] => set (c1 := c) end.
  assert (E : c_cur1 G c1 = face_docking G /\ c_des1 G c1 = vunit G (to_body G (t_ns (v_t G (nav_step (after h) i))) (a_q G (v_a G (nav_step (after h) i))) (r_rpos G (v_r G (nav_step (after h) i)))) /\ c_cur2 G c1 = face_antenna G /\ c_des2 G c1 = r_hat).
  { unfold c1, objectives. rewrite C1, V, C3, Hh. cbn [andb]. cbv zeta. replace (r_state G (v_r G (nav_step (after h) i)) =? 0) with false by lia.
    rewrite F. cbn. repeat split. }
  clearbody c1. unfold run_pointing. destruct (_ && vfin G (c_cur2 G c1)); [|exact E].
  destruct (pointing G _ _ _ _ _ _ _ _) as [p [m rw]]. cbv zeta. destruct (_ && _); exact E.
Qed.

(** the vectors of the body to be pointed are chosen by the autonomous modes only *)
Lemma manual_blind h : Forall (fun i => n_adcs G i <> 7 /\ n_adcs G i <> 8) h ->
  c_cur1 G (v_c G (after h)) = vnan G /\ c_t G (v_c G (after h)) = vzero G /\
  (Forall (fun i => n_adcs G i <> 2 /\ n_adcs G i <> 5) h -> c_m G (v_c G (after h)) = vzero G).
Proof.
  induction h as [|i h IH] using rev_ind; intros F; [repeat split|].
  apply Forall_app in F. destruct F as [F Fi]. apply Forall_inv in Fi. destruct (IH F) as (C & T & M).
  rewrite after_snoc, ctl_cases. cbv zeta.
  assert (M' : Forall (fun i => n_adcs G i <> 2 /\ n_adcs G i <> 5) (h ++ [i]) -> c_m G (v_c G (after h)) = vzero G /\ n_adcs G i <> 2 /\ n_adcs G i <> 5).
  { intros X. apply Forall_app in X. destruct X as [X Xi]. apply Forall_inv in Xi. split; [apply M; exact X|exact Xi]. }
  destruct ((n_adcs G i =? 5) || (n_adcs G i =? 2)) eqn:E1.
  { assert (X : Forall (fun i => n_adcs G i <> 2 /\ n_adcs G i <> 5) (h ++ [i]) -> False) by (intros X; apply M' in X; lia).
    unfold run_detumble. destruct (a_bvalid G _); [destruct (detumble G _ _) as [d m]|]; cbn; (split; [assumption|]; split; [reflexivity|]; intros Y; contradiction (X Y)). }
  destruct ((n_adcs G i =? 7) || (n_adcs G i =? 8)) eqn:E2; [lia|].
  destruct ((n_adcs G i =? 6) || (n_adcs G i =? 0)) eqn:E3.
  { rewrite pointing_off by (right; right; left; cbn; rewrite C; apply fin_nan). cbn. split; [assumption|]. split; [assumption|]. intros X. apply M' in X. tauto. }
  destruct ((n_adcs G i =? 1) || (n_adcs G i =? 3) || (n_adcs G i =? 4)) eqn:E4; cbn.
  { split; [assumption|]. split; reflexivity. }
  split; [assumption|]. split; [assumption|]. intros X. apply M' in X. tauto.
Qed.

Lemma manual_points h i d1 d2 : n_adcs G i = 6 -> n_des1 G i = Some d1 -> n_des2 G i = Some d2 -> vfin G d1 = true -> vfin G d2 = true ->
  let c := v_c G (after h) in let s := after (h ++ [i]) in
  vfin G (c_cur1 G c) = true -> vfin G (c_cur2 G c) = true -> a_valid G (v_a G s) = true ->
  exists p m rw, pointing G d1 (c_cur1 G c) d2 (c_cur2 G c) (n_wheels G i) (a_w G (v_a G s)) (a_b G (v_a G s)) (c_pst G c) = (p, (m, rw)) /\
    (vfin G m = true -> vfin G (vneg G rw) = true -> c_t G (v_c G s) = vneg G rw /\ c_m G (v_c G s) = m).
Proof.
  intros A D1 D2 F1 F2. cbv zeta. intros C1 C2 V.
  assert (B : a_bvalid G (v_a G (after (h ++ [i]))) = true).
  { destruct (magnetometer h i) as (Bv & _). apply Bv. destruct (after_attitude G epoch h i V) as [_ B]. exact B. }
  rewrite after_snoc in *. rewrite ctl_cases. cbv zeta. rewrite A, D1, D2. cbn [Z.eqb Pos.eqb orb written].
  unfold run_pointing. cbn [c_cur1 c_cur2 c_des1 c_des2 c_pst c_t c_m c_dst]. rewrite V, B, F1, F2, C1, C2. cbn [andb].
  destruct (pointing G _ _ _ _ _ _ _ _) as [p [m rw]]. exists p, m, rw. split; [reflexivity|]. intros E1 E2. cbv zeta. rewrite E1, E2. split; reflexivity.
Qed.
End P.
