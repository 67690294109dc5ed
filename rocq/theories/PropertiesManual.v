(** Propulsion under manual control. *)
From Verif Require Import Base FaultModel FaultHandlerModel PropModel PropSpec ManualProofs PropertiesProp.

(** C181.  After every cycle under manual control, and however often the 3 ms interrupt comes until the next, each of the six
    valves is open exactly if its setting is positive; nothing is counted as a firing.  Missing: manual control ordered
    while a firing is in progress. *)
Theorem C181_by_hand_partial : forall p0 c p, by_hand p0 c p -> ps_state p0 = p_manual ->
  length (d_t1 (ps_drv p0)) = 2%nat -> length (d_t2 (ps_drv p0)) = 4%nat -> d_on (ps_drv p0) = false ->
  ps_state p = p_manual /\ ps_fired p = ps_fired p0 /\ forall n, as_set c (after_ticks n (ps_drv p)).
Proof. exact hand_run. Qed.
Print Assumptions C181_by_hand_partial.
Example C181_cfg (a b : Z) : pcfg := mk_pcfg [a; 0; b; 0] 0 a 50 1 1 1 1 0.
Example C181_case : let p0 := ps_set_state (pst_init p_disabled) p_manual in
  by_hand p0 (C181_cfg 0 5) (prop_ctrl 8 (C181_cfg 0 5) C30_ok (prop_ctrl 7 (C181_cfg 1 0) C30_ok p0)) /\
  d_t2 (ps_drv (prop_ctrl 7 (C181_cfg 1 0) C30_ok p0)) = [true; false; false; false] /\
  d_t1 (ps_drv (prop_ctrl 7 (C181_cfg 1 0) C30_ok p0)) = [false; true] /\
  d_t2 (ps_drv (prop_ctrl 8 (C181_cfg 0 5) C30_ok (prop_ctrl 7 (C181_cfg 1 0) C30_ok p0))) = [false; false; true; false].
Proof.
  cbv zeta. split; [|vm_compute; auto]. apply (hand_next _ (C181_cfg 1 0) (prop_ctrl 7 (C181_cfg 1 0) C30_ok (ps_set_state (pst_init p_disabled) p_manual))); [apply hand_first; reflexivity|apply between_same|reflexivity].
Qed.

(** In the first cycle already, whatever went before. *)
Theorem C181_each_cycle_partial : forall cc c s p, ps_state p = p_manual -> length (d_t1 (ps_drv p)) = 2%nat -> length (d_t2 (ps_drv p)) = 4%nat ->
  length (c_sched c) = 4%nat -> let p' := prop_ctrl cc c s p in ps_state p' = p_manual /\ as_set c (ps_drv p').
Proof. intros cc c s p S L1 L2 L3. destruct (manual_sets cc c s p S L1 L2 L3) as (A & _ & B & _). split; assumption. Qed.
Print Assumptions C181_each_cycle_partial.

(** a firing is under way, three interrupts into it, when the ground orders manual control with all settings 0 *)
Example C181_fire : pst := C30_step (C30_step (C30_step (C30_step (C30_step C30_idle)))).
Example C181_ordered : pst := ps_set_drv (ps_set_state C181_fire p_manual) (after_ticks 3 (ps_drv C181_fire)).
Example C181_after : pst := prop_ctrl 7 (C181_cfg 0 0) C30_ok C181_ordered.
Example C181_run : exists l, prun (pst_init p_disabled) (mk_pc Ground 7 (C181_cfg 0 0) C30_ok C181_ordered C181_after :: l) C181_after.
Proof.
  assert (ST : forall l p, prun (pst_init p_disabled) l p -> exists l', prun (pst_init p_disabled) l' (C30_step p)).
  { intros l p R. eexists. exact (prun_cons _ _ _ _ _ 7 C30_cfg C30_ok R (between_same _)). }
  assert (B : between Manager (pst_init p_disabled) C30_idle).
  { split; [exists 0%nat; reflexivity|]. cbn. repeat (split; [reflexivity|]). auto. }
  pose proof (prun_cons _ _ _ _ _ 7 C30_cfg C30_ok (prun_nil (pst_init p_disabled)) B) as R1.
  destruct (ST _ _ R1) as (l2 & R2). destruct (ST _ _ R2) as (l3 & R3). destruct (ST _ _ R3) as (l4 & R4). destruct (ST _ _ R4) as (l5 & R5).
  exists l5. apply prun_cons with (p := C181_fire); [exact R5|]. unfold C181_ordered.
  generalize C181_fire. intros x. split; [exists 3%nat; reflexivity|]. cbn [ps_press ps_vent ps_fired ps_set_state ps_set_drv]. auto.
Qed.
(** C181 is false of manual control ordered during a firing: the interrupt goes on with the schedule and reopens a thruster
    the ground has set to 0. *)
Theorem C181_while_firing_refuted : exists l p c, prun (pst_init p_disabled) l p /\ ps_state p = p_manual /\
  setting c T2 0 = Some 0 /\ as_set c (ps_drv p) /\ (exists y l', l = y :: l' /\ y_cfg y = c) /\
  drv_is_open T2 0 (after_ticks 1 (ps_drv p)) = true /\ drv_is_open T2 0 (after_ticks 20 (ps_drv p)) = true.
Proof.
  destruct C181_run as (l & R). eexists _, _, (C181_cfg 0 0). split; [exact R|]. split; [vm_compute; reflexivity|]. split; [reflexivity|].
  split; [|split; [do 2 eexists; split; reflexivity|split; vm_compute; reflexivity]].
  unfold C181_after. apply manual_sets; vm_compute; reflexivity.
Qed.
Print Assumptions C181_while_firing_refuted.
