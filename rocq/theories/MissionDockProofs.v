From Verif Require Import Base FaultModel FaultHandlerModel FaultHandlerSpec FaultHandlerProofs FaultEscalationProofs
  MissionModel MissionSpec MissionProofs.

Lemma set_mission_entry s w : mm_have_entry (wm (set_mission_state s w)) = mm_have_entry (wm w).
Proof. unfold set_mission_state. destruct (s =? m_safehold), ((s =? m_leader_close_approach) || (s =? m_follower_close_approach)); reflexivity. Qed.
Lemma transition2_entry s a w : mm_have_entry (wm (transition2 s a w)) = mm_have_entry (wm w).
Proof. unfold transition2. cbn [upd_m with_m wm]. cbn [m_set_adcs mm_have_entry]. rewrite set_mission_entry. destruct (s =? m_safehold); reflexivity. Qed.
Lemma transition3_entry s a p w : mm_have_entry (wm (transition3 s a p w)) = mm_have_entry (wm w).
Proof. unfold transition3. change (mm_have_entry (wm (transition2 s a (upd_m w (fun m => m_set_sph_dcdc m (negb (p =? p_disabled)))))) = mm_have_entry (wm w)). rewrite transition2_entry. reflexivity. Qed.

Lemma dispatch_entry i s w w' : s <> m_docking -> dispatch i s w = Some w' -> mm_have_entry (wm w') = mm_have_entry (wm w).
Proof.
  intros N. unfold dispatch.
  destruct (s =? m_startup).
  { unfold dispatch_startup. destruct (mm_kill (wm w) =? kill_switch_value); [discriminate|].
    destruct (mm_elapsed (wm w) <? deployment_wait_batch_thresh).
    - destruct (wcc w mod deployment_wait_batch_size =? 0); intros E; injection E as <-; reflexivity.
    - match goal with |- context [any_faulted ?a ?b] => destruct (any_faulted a b) as [h f] end.
      destruct f; intros E; injection E as <-; rewrite transition3_entry; cbn;
        match goal with |- context [if ?c then _ else _] => destruct c; reflexivity end. }
  destruct (s =? m_detumble).
  { intros E; injection E as <-. unfold dispatch_detumble. destruct (i_att_valid i && i_slow i); [|reflexivity].
    destruct (negb (mm_adcs_dcdc (wm w))); [reflexivity|apply transition2_entry]. }
  destruct (s =? m_initialization_hold); [intros E; injection E as <-; reflexivity|].
  destruct (s =? m_standby).
  { intros E; injection E as <-. unfold dispatch_standby. destruct (mm_desig (wm w) =? d_follower); [apply transition2_entry|].
    destruct (mm_desig (wm w) =? d_leader); [apply transition2_entry|reflexivity]. }
  destruct (s =? m_follower); [intros E; injection E as <-; unfold dispatch_far; destruct (nearer _ _); [apply transition2_entry|reflexivity]|].
  destruct (s =? m_leader); [intros E; injection E as <-; unfold dispatch_far; destruct (nearer _ _); [apply transition2_entry|reflexivity]|].
  destruct (s =? m_follower_close_approach); [intros E; injection E as <-; unfold dispatch_close_approach; destruct (nearer _ _ && _); [apply transition2_entry|reflexivity]|].
  destruct (s =? m_leader_close_approach); [intros E; injection E as <-; unfold dispatch_close_approach; destruct (nearer _ _ && _); [apply transition2_entry|reflexivity]|].
  destruct (Z.eqb_spec s m_docking); [contradiction|].
  destruct (s =? m_docked); [intros E; injection E as <-; reflexivity|].
  destruct (s =? m_safehold); [intros E; injection E as <-; unfold dispatch_safehold; destruct (_ <=? _); reflexivity|].
  destruct (s =? m_manual); intros E; injection E as <-; [reflexivity|apply transition2_entry].
Qed.

Lemma execute_entry i w w' : wmission w <> m_docking -> mission_execute i w = Some w' -> mm_have_entry (wm w') = mm_have_entry (wm w).
Proof.
  intros N EX. unfold mission_execute in EX. destruct (main_split w) as (h & r & E & _). rewrite E in EX.
  assert (D : forall w2, dispatch i (wmission w) (with_h w h) = Some w2 -> mm_have_entry (wm w2) = mm_have_entry (wm w)).
  { intros w2 H. apply (dispatch_entry _ _ _ _ N) in H. exact H. }
  destruct (negb _); [|apply D; exact EX]. destruct r.
  - apply D; exact EX.
  - injection EX as <-. exact (transition3_entry m_safehold a_startup p_disabled (with_h w h)).
  - match type of EX with (if ?c then _ else _) = _ => destruct c end; [|apply D; exact EX].
    injection EX as <-. exact (transition2_entry m_standby a_point_standby (with_h w h)).
Qed.

Lemma docking_leaves i w w' : wmission w = m_docking -> no_response w -> mission_execute i w = Some w' -> wmission w' <> m_docking ->
  mm_have_entry (wm w') = false.
Proof.
  intros M NR EX L. destruct (docking_cycle i w w' M NR EX) as (h & _ & -> & _ & M2). set (v := with_h w h) in *. clearbody v. clear EX.
  unfold dispatch_docking in *. set (w1 := if negb (mm_have_entry (wm v)) then _ else v) in *.
  assert (M1 : wmission w1 = m_docking) by (unfold w1; destruct (negb _); [change (wmission v = m_docking)|]; exact M2). clearbody w1.
  destruct (i_docked i).
  - exact (transition2_entry m_docked a_zero_torque (upd_m w1 (fun m => m_set_have_entry m false))).
  - destruct (too_long_in_docking w1); [|contradiction].
    exact (transition2_entry m_standby a_point_standby (upd_m w1 (fun m => m_set_have_entry m false))).
Qed.

Lemma orderly_inv w : orderly w -> wmission w <> m_docking -> mm_have_entry (wm w) = false.
Proof.
  induction 1 as [n w|g i w w1 w2 O IH EN G NR EX]; intros M.
  - reflexivity.
  - pose proof EN as (_ & E2 & _ & E3 & _). destruct (Z.eq_dec (wmission w1) m_docking) as [D|D].
    + apply (docking_leaves i w1 w2); auto.
    + rewrite (execute_entry i w1 w2 D EX), E3. apply IH. intros W. destruct g; [exact (G eq_refl W)|]. apply D. rewrite (E2 eq_refl). exact W.
Qed.

Lemma in_docking_stay k w : in_docking_for k w -> docking_stay k w.
Proof.
  induction 1 as [i w w1 O M (w0 & EN & EX) D|k i w w1 _ IH (w0 & EN & EX) D].
  - constructor; [exact D|]. pose proof EN as (_ & E2 & _ & E3 & _). rewrite (execute_entry i w0 w1); [|rewrite (E2 eq_refl); exact M|exact EX].
    rewrite E3. apply orderly_inv; assumption.
  - exact (stay_more k w w0 i w1 IH EN EX D).
Qed.

Theorem orderly_timeout k w w1 i w2 : in_docking_for k w -> k < 2 ^ 32 -> environment false w w1 ->
  no_response w1 -> i_docked i = false -> mission_execute i w1 = Some w2 ->
  wmission w2 = (if mm_dock_limit (wm w1) <? k then m_standby else m_docking).
Proof. intros H. exact (docking_timeout k w w1 i w2 (in_docking_stay k w H)). Qed.
