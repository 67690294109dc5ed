From Verif Require Import Base FaultModel FaultHandlerModel FaultHandlerSpec FaultHandlerProofs FaultEscalationProofs
  MissionModel MissionSpec.

(** the outcome of the handlers, with what they leave alone *)
Lemma main_split w : exists h r, main_execute main_machines (wh w) = (h, r) /\
  hc h = wcc w /\ b_mission (hb h) = wmission w /\ b_enter_ca (hb h) = b_enter_ca (hb (wh w)) /\
  (r = RSafehold <-> response_safehold w) /\ (r = RStandby <-> response_standby w).
Proof.
  pose proof (main_same (wh w)) as (A & B & _ & _ & C & _). pose proof (main_safehold (wh w)) as D. pose proof (main_standby (wh w)) as E.
  destruct (main_execute main_machines (wh w)) as [h r]. cbn in *. exists h, r. auto 10.
Qed.

Ltac eqb_all :=
  repeat match goal with
  | |- context [?a =? ?b] => destruct (Z.eqb_spec a b); try lia; try contradiction
  end.

(** ** C20 *)
Lemma safehold_disarms i w w' : response_safehold w -> wmission w <> m_startup -> wmission w <> m_manual ->
  mission_execute i w = Some w' -> disarmed w' /\ mm_safehold_begin (wm w') = wcc w /\ wcc w' = wcc w.
Proof.
  intros R N1 N2 EX. unfold mission_execute in EX.
  destruct (main_split w) as (h & r & E & A & B & B' & C & _). rewrite E in EX. apply C in R. subst r.
  destruct (Z.eqb_spec (wmission w) m_startup); [contradiction|]. destruct (Z.eqb_spec (wmission w) m_manual); [contradiction|].
  cbn [orb negb] in EX. injection EX as <-. unfold disarmed. cbn. unfold wcc in *. cbn. rewrite A. auto 10.
Qed.

(** a cycle with a safehold response always succeeds unless in startup or manual *)
Lemma safehold_response_total i w : response_safehold w -> wmission w <> m_startup -> wmission w <> m_manual ->
  exists w', mission_execute i w = Some w'.
Proof.
  intros R N1 N2. unfold mission_execute.
  destruct (main_split w) as (h & r & E & A & B & B' & C & _). rewrite E. apply C in R. subst r.
  destruct (Z.eqb_spec (wmission w) m_startup); [contradiction|]. destruct (Z.eqb_spec (wmission w) m_manual); [contradiction|].
  eexists; reflexivity.
Qed.

(** ** One cycle *)
Lemma any_faulted_same l : forall h, same_inputs h (fst (any_faulted l h)) /\ hb (fst (any_faulted l h)) = hb h.
Proof.
  induction l as [|i t IH]; intros h; cbn [any_faulted]; [split; [apply same_inputs_refl|reflexivity]|].
  pose proof (is_faulted_same i h) as (A & B & _). destruct (is_faulted i h) as [h' b]. cbn [fst] in A, B.
  destruct b; [auto|]. destruct (IH h') as (C & D). split; [exact (same_inputs_trans _ _ _ A C)|]. etransitivity; [exact D|exact B].
Qed.

Lemma transition2_mission s a w : wmission (transition2 s a w) = s.
Proof. reflexivity. Qed.
Lemma transition3_mission s a p w : wmission (transition3 s a p w) = s.
Proof. reflexivity. Qed.

Lemma dispatch_startup_spec w w' : dispatch_startup w = Some w' ->
  (mm_elapsed (wm w) < deployment_wait_batch_thresh /\ wh w' = wh w /\
   mm_elapsed (wm w') = (if wcc w mod 100 =? 0 then u8 (mm_elapsed (wm w) + 1) else mm_elapsed (wm w)) /\
   mm_adcs (wm w') = mm_adcs (wm w) /\ mm_adcs_dcdc (wm w') = mm_adcs_dcdc (wm w) /\ mm_sph_dcdc (wm w') = mm_sph_dcdc (wm w)) \/
  (deployment_wait_batch_thresh <= mm_elapsed (wm w) /\ (wmission w' = m_detumble \/ wmission w' = m_initialization_hold)).
Proof.
  unfold dispatch_startup. destruct (_ =? kill_switch_value); [discriminate|].
  destruct (Z.ltb_spec (mm_elapsed (wm w)) deployment_wait_batch_thresh).
  - intros X. left. split; [assumption|]. change deployment_wait_batch_size with 100 in X.
    destruct (_ =? 0); injection X as <-; cbn; auto 10.
  - set (w2 := if _ =? r_disabled then _ else _). destruct (any_faulted hardware_faults (wh w2)) as [h b].
    intros X. right. split; [assumption|]. destruct b; injection X as <-; cbn; auto.
Qed.

Lemma thresh_val : deployment_wait_batch_thresh = 106. Proof. reflexivity. Qed.
Lemma wait_val : deployment_wait = 10588. Proof. reflexivity. Qed.

Lemma dispatch_docking_spec i w :
  wmission (dispatch_docking i w) =
    (if i_docked i then m_docked
     else if mm_dock_limit (wm w) <? u32 (wcc w - (if mm_have_entry (wm w) then mm_enter_docking (wm w) else wcc w)) then m_standby
     else wmission w) /\
  (i_docked i = false -> wmission (dispatch_docking i w) = wmission w -> wmission w <> m_standby ->
    mm_have_entry (wm (dispatch_docking i w)) = true /\
    mm_enter_docking (wm (dispatch_docking i w)) = (if mm_have_entry (wm w) then mm_enter_docking (wm w) else wcc w)) /\
  wcc (dispatch_docking i w) = wcc w.
Proof.
  unfold dispatch_docking, too_long_in_docking.
  destruct (mm_have_entry (wm w)) eqn:E; cbn [negb]; destruct (i_docked i).
  - repeat split; intros; discriminate.
  - destruct (_ <? _); cbn; repeat split; auto; intros _ X Y; congruence.
  - repeat split; intros; discriminate.
  - set (w1 := upd_m w _).
    change (mm_dock_limit (wm w1)) with (mm_dock_limit (wm w)). change (wcc w1) with (wcc w).
    change (mm_enter_docking (wm w1)) with (wcc w).
    destruct (_ <? _); cbn; repeat split; auto; intros _ X Y; congruence.
Qed.

(** states other than startup, docking and the fault responses *)
Lemma dispatch_edge i w w0 w' : wmission w = wmission w0 -> wm w = wm w0 ->
  dispatch i (wmission w) w = Some w' -> conops i w0 (wmission w) (wmission w').
Proof.
  intros EM EW. unfold dispatch.
  destruct (Z.eqb_spec (wmission w) m_startup) as [E|N0].
  { intros X. destruct (dispatch_startup_spec _ _ X) as [(A & B & _)|(A & [F|F])].
    - replace (wmission w') with (wmission w) by (unfold wmission; rewrite B; reflexivity). apply edge_stay.
    - rewrite E, F. apply edge_deploy_ok. rewrite thresh_val, EW in A. rewrite wait_val. lia.
    - rewrite E, F. apply edge_deploy_hold. rewrite thresh_val, EW in A. rewrite wait_val. lia. }
  destruct (Z.eqb_spec (wmission w) m_detumble) as [E|N1].
  { intros X. injection X as <-. unfold dispatch_detumble.
    destruct (i_att_valid i) eqn:V, (i_slow i) eqn:S; cbn [andb]; try apply edge_stay.
    destruct (negb _); [apply edge_stay|]. rewrite E, transition2_mission. apply edge_detumbled; assumption. }
  destruct (Z.eqb_spec (wmission w) m_initialization_hold) as [E|N2].
  { intros X. injection X as <-. apply edge_stay. }
  destruct (Z.eqb_spec (wmission w) m_standby) as [E|N3].
  { intros X. injection X as <-. unfold dispatch_standby. rewrite EW.
    destruct (Z.eqb_spec (mm_desig (wm w0)) d_follower); [rewrite E, transition2_mission; apply edge_follower; assumption|].
    destruct (Z.eqb_spec (mm_desig (wm w0)) d_leader); [rewrite E, transition2_mission; apply edge_leader; assumption|].
    apply edge_stay. }
  destruct (Z.eqb_spec (wmission w) m_follower) as [E|N4].
  { intros X. injection X as <-. unfold dispatch_far, nearer. destruct (i_rel_valid i) eqn:V, (i_close i) eqn:S; cbn [andb]; try apply edge_stay.
    rewrite E, transition2_mission. apply edge_follower_near; assumption. }
  destruct (Z.eqb_spec (wmission w) m_leader) as [E|N5].
  { intros X. injection X as <-. unfold dispatch_far, nearer. destruct (i_rel_valid i) eqn:V, (i_close i) eqn:S; cbn [andb]; try apply edge_stay.
    rewrite E, transition2_mission. apply edge_leader_near; assumption. }
  assert (CA : forall s, wmission w = s -> In s [m_follower_close_approach; m_leader_close_approach] ->
     conops i w0 s (wmission (dispatch_close_approach i w))).
  { intros s E I. unfold dispatch_close_approach, nearer. destruct (i_rel_valid i) eqn:V, (i_dock i) eqn:S; cbn [andb]; try (rewrite E; apply edge_stay).
    rewrite EW. destruct (mm_dock_cmd (wm w0)) eqn:D; [|rewrite E; apply edge_stay]. rewrite transition2_mission. apply edge_dock; assumption. }
  destruct (Z.eqb_spec (wmission w) m_follower_close_approach) as [E|N6].
  { intros X. injection X as <-. apply CA; [reflexivity|]. rewrite E. cbn. auto. }
  destruct (Z.eqb_spec (wmission w) m_leader_close_approach) as [E|N7].
  { intros X. injection X as <-. apply CA; [reflexivity|]. rewrite E. cbn. auto. }
  destruct (Z.eqb_spec (wmission w) m_docking) as [E|N8].
  { intros X. injection X as <-. destruct (dispatch_docking_spec i w) as (-> & _ & _).
    destruct (i_docked i) eqn:D; [rewrite E; apply edge_docked; assumption|].
    destruct (_ <? _); [rewrite E; apply edge_dock_timeout; assumption|apply edge_stay]. }
  destruct (Z.eqb_spec (wmission w) m_docked) as [E|N9].
  { intros X. injection X as <-. apply edge_stay. }
  destruct (Z.eqb_spec (wmission w) m_safehold) as [E|N10].
  { intros X. injection X as <-. unfold dispatch_safehold. destruct (_ <=? _); apply edge_stay. }
  destruct (Z.eqb_spec (wmission w) m_manual) as [E|N11].
  { intros X. injection X as <-. apply edge_stay. }
  intros X. injection X as <-. rewrite transition2_mission. apply edge_undefined; [|auto].
  unfold m_startup, m_detumble, m_initialization_hold, m_standby, m_follower, m_leader, m_follower_close_approach, m_leader_close_approach,
    m_docking, m_docked, m_safehold, m_manual in *. lia.
Qed.

(** ** C22 *)
Lemma mission_edge i w w' : mission_execute i w = Some w' -> conops i w (wmission w) (wmission w').
Proof.
  intros EX. unfold mission_execute in EX.
  destruct (main_split w) as (h & r & E & A & B & B' & C & D). rewrite E in EX.
  assert (G : dispatch i (wmission w) (with_h w h) = Some w' -> conops i w (wmission w) (wmission w')).
  { intros X. assert (EM : wmission (with_h w h) = wmission w) by exact B. rewrite <- EM in X |- *.
    apply (dispatch_edge i (with_h w h) w w'); auto. }
  destruct (Z.eqb_spec (wmission w) m_startup) as [E0|N0]; [apply G, EX|].
  destruct (Z.eqb_spec (wmission w) m_manual) as [E11|N11]; [apply G, EX|].
  cbn [orb negb] in EX. destruct r.
  - apply G, EX.
  - injection EX as <-. apply edge_fault_safehold; auto. apply C. reflexivity.
  - destruct (Z.eqb_spec (wmission w) m_safehold) as [E10|N10]; [apply G, EX|].
    destruct (Z.eqb_spec (wmission w) m_initialization_hold) as [E2|N2]; [apply G, EX|].
    destruct (Z.eqb_spec (wmission w) m_detumble) as [E1|N1]; [apply G, EX|].
    destruct (Z.eqb_spec (wmission w) m_standby) as [E3|N3]; [apply G, EX|].
    cbn [negb andb] in EX. injection EX as <-. change (wmission (upd_m _ _)) with m_standby.
    assert (R : response_standby w) by (apply D; reflexivity).
    destruct (Z_le_dec 0 (wmission w)); [destruct (Z_le_dec (wmission w) 11)|].
    + apply edge_fault_standby; [|exact R].
      unfold m_startup, m_detumble, m_initialization_hold, m_standby, m_follower, m_leader, m_follower_close_approach, m_leader_close_approach,
        m_docking, m_docked, m_safehold, m_manual in *. cbn [In]. lia.
    + apply edge_undefined; [lia|auto].
    + apply edge_undefined; [lia|auto].
Qed.

(** ** C21 *)
Lemma stays_put i w w' : (wmission w = m_safehold \/ wmission w = m_manual) -> mission_execute i w = Some w' -> wmission w' = wmission w.
Proof.
  intros HS EX. apply mission_edge in EX. remember (wmission w) as s. remember (wmission w') as t.
  destruct EX; try reflexivity;
    unfold m_startup, m_detumble, m_initialization_hold, m_standby, m_follower, m_leader, m_follower_close_approach, m_leader_close_approach,
        m_docking, m_docked, m_safehold, m_manual in *; cbn [In] in *; lia.
Qed.

Lemma history_stays l w w' : history l w w' -> Forall (fun g => g = false) l ->
  (wmission w = m_safehold \/ wmission w = m_manual) -> wmission w' = wmission w.
Proof.
  induction 1 as [w|l w w1 g i w2 HH IH (x & HE & HX)]; intros HF HS; [reflexivity|].
  apply Forall_app in HF. destruct HF as (F1 & F2). apply Forall_inv in F2. subst g. specialize (IH F1 HS).
  destruct HE as (_ & EM & _). specialize (EM eq_refl).
  rewrite <- IH, <- EM. apply stays_put with i; [|exact HX]. rewrite EM, IH. exact HS.
Qed.

(** ** C23 *)
Lemma startup_cycle i w w' : wmission w = m_startup -> mission_execute i w = Some w' ->
  wcc w' = wcc w /\
  ((mm_elapsed (wm w) < 106 /\ wmission w' = m_startup /\
    mm_elapsed (wm w') = (if wcc w mod 100 =? 0 then u8 (mm_elapsed (wm w) + 1) else mm_elapsed (wm w)) /\
    mm_adcs (wm w') = mm_adcs (wm w) /\ mm_adcs_dcdc (wm w') = mm_adcs_dcdc (wm w) /\ mm_sph_dcdc (wm w') = mm_sph_dcdc (wm w)) \/
   (106 <= mm_elapsed (wm w) /\ wmission w' <> m_startup)).
Proof.
  intros HM EX. unfold mission_execute in EX. destruct (main_split w) as (h & r & E & A & B & B' & _). rewrite E, HM in EX. cbn [Z.eqb orb negb] in EX.
  change (m_startup =? m_startup) with true in EX. cbn [orb negb] in EX.
  unfold dispatch in EX. change (m_startup =? m_startup) with true in EX. cbn iota in EX.
  assert (CC : wcc w' = wcc w).
  { clear - EX A. unfold dispatch_startup in EX. destruct (_ =? kill_switch_value); [discriminate|].
    destruct (_ <? _); [destruct (_ =? 0); injection EX as <-; exact A|].
    set (w2 := if _ =? r_disabled then _ else _) in EX.
    pose proof (any_faulted_same hardware_faults (wh w2)) as ((F & _) & _). destruct (any_faulted hardware_faults (wh w2)) as [h3 b].
    assert (G : hc (wh w2) = hc h) by (unfold w2; destruct (_ =? r_disabled); reflexivity).
    cbn in F. destruct b; injection EX as <-; unfold wcc; cbn; rewrite F, G; exact A. }
  split; [exact CC|].
  destruct (dispatch_startup_spec _ _ EX) as [(A1 & A2 & A3 & A4)|(A1 & A2)].
  - left. rewrite thresh_val in A1. split; [exact A1|]. split; [unfold wmission; rewrite A2; cbn; rewrite B; exact HM|].
    replace (wcc (with_h w h)) with (wcc w) in A3 by (symmetry; exact A). split; [exact A3|exact A4].
  - right. rewrite thresh_val in A1. split; [exact A1|]. unfold m_startup, m_detumble, m_initialization_hold in *. destruct A2; lia.
Qed.

(** from power-on, with the timer restored at [e0]: exactly when startup is left *)
Lemma deployment_history l w0 w : history l w0 w -> Forall (fun g => g = false) l ->
  wmission w0 = m_startup -> wcc w0 = 0 -> forall e0, mm_elapsed (wm w0) = e0 -> 0 <= e0 <= 106 ->
  let n := Z.of_nat (length l) in
  (n <= 100 * (106 - e0) -> wmission w = m_startup /\ mm_elapsed (wm w) = e0 + n / 100 /\ wcc w = n) /\
  (n = 100 * (106 - e0) + 1 -> wmission w <> m_startup).
Proof.
  intros HH HF HM HC e0 HE HB. cbv zeta.
  induction HH as [w|l w w1 g i w2 HH IH (x & EN & HX)].
  - cbn [length]. change (Z.of_nat 0) with 0. split; [|lia]. intros _. repeat split; auto. change (0 / 100) with 0. lia.
  - apply Forall_app in HF. destruct HF as (F1 & F2). apply Forall_inv in F2. subst g.
    destruct (IH F1 HM HC HE) as (I1 & I2). rewrite app_length. cbn [length]. rewrite Nat2Z.inj_add. change (Z.of_nat 1) with 1.
    set (n := Z.of_nat (length l)) in *. assert (0 <= n) by lia.
    destruct EN as (E1 & E2 & _ & _ & _ & _ & E3 & _). specialize (E2 eq_refl).
    split.
    + intros L. destruct (I1 ltac:(lia)) as (J1 & J2 & J3).
      destruct (startup_cycle i x w2) as (C1 & [(C2 & C3 & C4 & _)|(C2 & C3)]); [congruence|exact HX| |].
      * split; [exact C3|]. rewrite C1, C4, E1, E3, J2, J3. rewrite (u32_id (n + 1)) by (change (2 ^ 32) with 4294967296; lia).
        destruct (Z.eqb_spec ((n + 1) mod 100) 0); [rewrite u8_id by (rewrite E3, J2 in C2; change (2 ^ 8) with 256; lia)|]; split; lia.
      * exfalso. rewrite E3, J2 in C2. lia.
    + intros L. destruct (I1 ltac:(lia)) as (J1 & J2 & J3).
      destruct (startup_cycle i x w2) as (C1 & [(C2 & C3 & C4 & _)|(C2 & C3)]); [congruence|exact HX| |exact C3].
      exfalso. rewrite E3, J2 in C2. lia.
Qed.

(** ** C24 *)
Lemma docking_cycle i w w' : wmission w = m_docking -> no_response w -> mission_execute i w = Some w' ->
  exists h, main_execute main_machines (wh w) = (h, RNone) /\ w' = dispatch_docking i (with_h w h) /\
    wcc (with_h w h) = wcc w /\ wmission (with_h w h) = m_docking.
Proof.
  intros HM (N1 & N2) EX. unfold mission_execute in EX. destruct (main_split w) as (h & r & E & A & B & B' & C & D). rewrite E, HM in EX.
  destruct r; [|exfalso; apply N1, C; reflexivity|exfalso; apply N2, D; reflexivity].
  cbn in EX. injection EX as <-. exists h. split; [exact E|]. split; [reflexivity|]. split; [exact A|]. unfold wmission; cbn. rewrite B. exact HM.
Qed.

(** staying in docking means no response was taken and no dock sensed *)
Lemma docking_stays i w w' : wmission w = m_docking -> mission_execute i w = Some w' -> wmission w' = m_docking -> no_response w /\ i_docked i = false.
Proof.
  intros HM EX HM'. unfold mission_execute in EX. destruct (main_split w) as (h & r & E & A & B & B' & C & D). rewrite E, HM in EX. cbn in EX.
  destruct r; [|injection EX as <-; discriminate HM'|injection EX as <-; discriminate HM'].
  split; [split; intros X; [apply C in X|apply D in X]; discriminate|].
  injection EX as <-. destruct (dispatch_docking_spec i (with_h w h)) as (F & _ & _). rewrite F in HM'.
  destruct (i_docked i); [discriminate HM'|reflexivity].
Qed.

Lemma docking_stay_inv k w : docking_stay k w -> 0 <= k /\ wmission w = m_docking /\
  ((k = 0 /\ mm_have_entry (wm w) = false) \/
   (0 < k /\ mm_have_entry (wm w) = true /\ mm_enter_docking (wm w) = u32 (wcc w - (k - 1)) )).
Proof.
  induction 1 as [w A B|k w w1 i w2 HS (K & M & IH) EN EX HM].
  - split; [lia|]. auto.
  - split; [lia|]. split; [exact HM|]. right. split; [lia|].
    destruct EN as (E1 & E2 & _ & E3 & E4 & _). specialize (E2 eq_refl). rewrite M in E2.
    destruct (docking_stays i w1 w2 E2 EX HM) as (NR & ND).
    destruct (docking_cycle i w1 w2 E2 NR EX) as (h & _ & -> & C1 & C2).
    destruct (dispatch_docking_spec i (with_h w1 h)) as (_ & F & G).
    destruct (F ND) as (F1 & F2); [congruence|rewrite C2; discriminate|].
    split; [exact F1|]. rewrite F2, G, C1. cbn [with_h wm].
    destruct IH as [(K0 & H0)|(K1 & H1 & H2)].
    + rewrite E3, H0. subst k. rewrite E1. unfold u32, uwrap. rewrite Z.add_simpl_r || idtac.
      replace (0 + 1 - 1) with 0 by lia. rewrite Z.sub_0_r, Zmod_mod. reflexivity.
    + rewrite E3, H1, E4, H2, E1. unfold u32, uwrap.
      rewrite Zminus_mod_idemp_l. f_equal. lia.
Qed.

Lemma docking_timeout k w w1 i w2 : docking_stay k w -> k < 2 ^ 32 -> environment false w w1 ->
  no_response w1 -> i_docked i = false -> mission_execute i w1 = Some w2 ->
  wmission w2 = (if mm_dock_limit (wm w1) <? k then m_standby else m_docking).
Proof.
  intros HS HK EN NR ND EX. destruct (docking_stay_inv _ _ HS) as (K & M & IH).
  destruct EN as (E1 & E2 & _ & E3 & E4 & _). specialize (E2 eq_refl). rewrite M in E2.
  destruct (docking_cycle i w1 w2 E2 NR EX) as (h & _ & -> & C1 & C2).
  destruct (dispatch_docking_spec i (with_h w1 h)) as (F & _ & _). rewrite F, ND, C1, C2. cbn [with_h wm].
  rewrite E3. destruct IH as [(-> & ->)|(K1 & -> & H2)].
  - rewrite Z.sub_diag. reflexivity.
  - rewrite E4, H2, E1, u32_sub. replace (wcc w + 1 - (wcc w - (k - 1))) with k by lia. rewrite u32_id by lia. reflexivity.
Qed.

(** ** C25 *)
Lemma safehold_cycle i w w' : wmission w = m_safehold -> ~ response_safehold w -> mission_execute i w = Some w' ->
  wmission w' = m_safehold /\ wcc w' = wcc w /\ mm_safehold_begin (wm w') = mm_safehold_begin (wm w) /\
  mm_reset (wm w') = (if one_day <=? u32 (wcc w - mm_safehold_begin (wm w)) then true else mm_reset (wm w)).
Proof.
  intros HM N1 EX. unfold mission_execute in EX. destruct (main_split w) as (h & r & E & A & B & B' & C & D). rewrite E, HM in EX.
  assert (X : dispatch i m_safehold (with_h w h) = Some w').
  { destruct r; [exact EX|exfalso; apply N1, C; reflexivity|exact EX]. }
  clear EX. unfold dispatch in X. cbn [m_safehold] in X.
  change (m_safehold =? m_startup) with false in X. change (m_safehold =? m_detumble) with false in X.
  change (Some (dispatch_safehold (with_h w h)) = Some w') in X. injection X as <-.
  unfold dispatch_safehold. replace (wcc (with_h w h)) with (wcc w) by (symmetry; exact A). cbn [with_h wm].
  destruct (one_day <=? _); unfold wmission; cbn; unfold wcc at 1; cbn; rewrite B, A; auto.
Qed.

Lemma u32_congr_sub a b c : u32 b = u32 c -> u32 (a - b) = u32 (a - c).
Proof. unfold u32, uwrap. intros H. rewrite (Zminus_mod a b), (Zminus_mod a c), H. reflexivity. Qed.

Lemma safehold_stay_inv k w : safehold_stay k w -> 0 <= k /\ wmission w = m_safehold /\ u32 (mm_safehold_begin (wm w)) = u32 (wcc w - k).
Proof.
  induction 1 as [i w w' R N1 N2 EX|k w w1 i w2 HS (K & M & IH) EN NR EX].
  - destruct (safehold_disarms i w w' R N1 N2 EX) as ((A & _) & B & C). rewrite B, C, Z.sub_0_r. split; [lia|auto].
  - destruct EN as (E1 & E2 & E3 & _). specialize (E2 eq_refl). rewrite M in E2.
    destruct (safehold_cycle i w1 w2 E2 NR EX) as (A & B & C & _).
    split; [lia|]. split; [exact A|]. rewrite C, E3, B, E1, IH.
    unfold u32, uwrap. rewrite Zminus_mod_idemp_l. f_equal. lia.
Qed.

Lemma safehold_day k w w1 i w2 : safehold_stay k w -> k + 1 < 2 ^ 32 -> environment false w w1 -> ~ response_safehold w1 ->
  mission_execute i w1 = Some w2 ->
  mm_reset (wm w2) = (if one_day <=? k + 1 then true else mm_reset (wm w1)).
Proof.
  intros HS HK EN NR EX. destruct (safehold_stay_inv _ _ HS) as (K & M & IH).
  destruct EN as (E1 & E2 & E3 & _). specialize (E2 eq_refl). rewrite M in E2.
  destruct (safehold_cycle i w1 w2 E2 NR EX) as (_ & _ & _ & ->).
  rewrite E3. rewrite (u32_congr_sub _ _ _ IH). rewrite E1.
  replace (u32 (u32 (wcc w + 1) - (wcc w - k))) with (k + 1); [reflexivity|].
  unfold u32, uwrap. rewrite Zminus_mod_idemp_l. replace (wcc w + 1 - (wcc w - k)) with (k + 1) by lia.
  symmetry. apply Z.mod_small. lia.
Qed.

(** a cycle in safehold with the radio handler itself asking for safehold: the day starts again *)
Lemma safehold_restarts i w w' : wmission w = m_safehold -> response_safehold w -> mission_execute i w = Some w' ->
  mm_reset (wm w') = mm_reset (wm w) /\ mm_safehold_begin (wm w') = wcc w.
Proof.
  intros HM R EX. unfold mission_execute in EX.
  destruct (main_split w) as (h & r & E & A & B & B' & C & _). rewrite E, HM in EX. apply C in R. subst r.
  cbn in EX. injection EX as <-. cbn. unfold wcc. cbn. split; [reflexivity|exact A].
Qed.
