From Verif Require Import Base FaultModel FaultHandlerModel PropModel PropSpec PropProofs PropCtrlProofs PropValveProofs PropRunProofs.

(** * C28: thruster valves open for the scheduled time and one at a time *)
Theorem C28_one_valve_opens_per_tick : forall l n i j, 0 <= n ->
  open_after l n i = false -> open_after l (n + 1) i = true -> open_after l n j = false -> open_after l (n + 1) j = true -> i = j.
Proof. exact one_opening. Qed.
Print Assumptions C28_one_valve_opens_per_tick.

Theorem C28_valves_follow_the_closed_form : forall l d n i, loaded l d ->
  nth_error (d_t2 (after_ticks n d)) i = (if Nat.ltb i (length l) then Some (open_after l (Z.of_nat n) i) else None) /\
  nth_error (d_sched (after_ticks n d)) i = (if Nat.ltb i (length l) then Some (left_after l (Z.of_nat n) i) else None).
Proof. exact valve_closed_form. Qed.
Print Assumptions C28_valves_follow_the_closed_form.

Theorem C28_open_for_a_third_of_the_time_in_ticks : forall l i s N, nth_error l i = Some s -> 0 <= s -> turn l i + s / 3 < Z.of_nat N ->
  Z.of_nat (ticks_open l N i) = s / 3.
Proof. exact ticks_open_exact. Qed.
Print Assumptions C28_open_for_a_third_of_the_time_in_ticks.

Theorem C28_ends_closed : forall l d n, loaded l d -> (forall i s, nth_error l i = Some s -> Z.of_nat i + s / 3 < Z.of_nat n) -> l <> [] ->
  all_closed (d_t2 (after_ticks n d)) /\ Forall (fun s => s = 0) (d_sched (after_ticks n d)).
Proof. exact finished. Qed.
Print Assumptions C28_ends_closed.

Example C28_example_schedule : list Z := [30; 0; 14; 999].
Example C28_example_loaded : loaded C28_example_schedule (mk_d [false; false] [false; false; false; false] C28_example_schedule true).
Proof. repeat split. repeat constructor; lia. Qed.
Example C28_example : map (open_after C28_example_schedule 1) [0%nat; 2%nat; 3%nat] = [true; false; false] /\
  map (open_after C28_example_schedule 3) [0%nat; 2%nat; 3%nat] = [true; true; true] /\
  ticks_open C28_example_schedule 400 0 = 10%nat /\ ticks_open C28_example_schedule 400 2 = 4%nat.
Proof. vm_compute. auto. Qed.

(** * C29: no thruster valve is open while propulsion is not firing *)
Theorem C29_closed_when_not_enabled_partial : forall cs d, (d_on d = false -> all_closed (d_t2 d)) -> Forall (fun c => ~ opens_thruster c) cs ->
  d_on (fold_left dcall_run cs d) = false -> all_closed (d_t2 (fold_left dcall_run cs d)).
Proof. exact drv_inv. Qed.
Print Assumptions C29_closed_when_not_enabled_partial.

Theorem C29_disable_closes_all : forall d, all_closed (d_t2 (drv_disable d)) /\ d_on (drv_disable d) = false.
Proof. exact (fun d => conj (map_false_closed (d_t2 d)) eq_refl). Qed.
Print Assumptions C29_disable_closes_all.

Theorem C29_reset_closes_everything : forall d, safe (drv_reset d).
Proof. exact reset_safe. Qed.
Print Assumptions C29_reset_closes_everything.

(** a thruster valve can be opened one by one without firing being enabled; nothing closes it on its own *)
Theorem C29_closed_when_not_enabled_refuted : exists cs, let d := fold_left dcall_run cs drv_init in
  d_on d = false /\ nth_error (d_t2 (after_ticks 1000 d)) 2 = Some true.
Proof. exists [DValve T2 2 true]. vm_compute. auto. Qed.
Print Assumptions C29_closed_when_not_enabled_refuted.

Example C29_example : let d := fold_left dcall_run [DSchedule [30; 0; 14; 999]; DStart; DTick; DTick; DTick] drv_init in
  d_on d = true /\ d_t2 d = [true; false; true; true] /\ d_t2 (dcall_run d DDisable) = [false; false; false; false].
Proof. vm_compute. auto. Qed.

(** * C30: propulsion fires only a valid schedule at its programmed time *)
Theorem C30_fires_only_when_ready : forall p0 l p who p1 cc c s, prun p0 l p -> ps_state p0 <> p_await_firing ->
  Forall (fun y => y_who y <> Ground) l -> who <> Ground -> between who p p1 ->
  ps_fired (prop_ctrl cc c s p1) <> ps_fired p1 ->
  ps_until p1 <= 1 /\ s_func s = true /\
  exists l1 y l2, l = l1 ++ y :: l2 /\ pressurized y /\ Forall (fun z => ps_state (y_before z) = p_await_firing) l1.
Proof. exact firing_history. Qed.
Print Assumptions C30_fires_only_when_ready.

(** even with the ground writing the state: firing begins only in the awaiting state, at the end of the countdown, with power *)
Theorem C30_fires_only_from_waiting : forall cc c s p, ps_fired (prop_ctrl cc c s p) <> ps_fired p ->
  ps_state p = p_await_firing /\ ps_until p <= 1 /\ s_func s = true /\ ps_state (prop_ctrl cc c s p) = p_firing /\
  ps_drv (prop_ctrl cc c s p) = drv_start (fst (drv_set_schedule (c_sched c) (ps_drv p))).
Proof. exact ctrl_fires. Qed.
Print Assumptions C30_fires_only_from_waiting.

Theorem C30_entering_firing_is_counted : forall cc c s p, ps_state (prop_ctrl cc c s p) = p_firing -> ps_state p <> p_firing ->
  ps_fired (prop_ctrl cc c s p) <> ps_fired p.
Proof. exact enters_firing. Qed.
Print Assumptions C30_entering_firing_is_counted.

Theorem C30_disabled_keeps_valves_closed : forall cc c s p, is_disabled (ps_state p) ->
  ps_state (prop_ctrl cc c s p) = p_disabled /\ safe (ps_drv (prop_ctrl cc c s p)) /\ ps_fired (prop_ctrl cc c s p) = ps_fired p.
Proof. exact ctrl_disabled. Qed.
Print Assumptions C30_disabled_keeps_valves_closed.

Example C30_cfg : pcfg := mk_pcfg [100; 0; 0; 50] 0 0 50 1 1 1 1 0.
Example C30_ok : sens := mk_sens true false false false true.
Example C30_step (p : pst) : pst := prop_ctrl 7 C30_cfg C30_ok p.
Example C30_idle : pst := ps_set_until (ps_set_state (pst_init p_disabled) p_idle) 5.
Lemma between_same p : between Nobody p p.
Proof. split; [exists 0%nat; reflexivity|]. cbn. auto. Qed.
(** disabled; the mission manager sets idle; pressurizing; awaiting; firing starts in the next cycle *)
Example C30_example : exists l p p1, prun (pst_init p_disabled) l p /\ Forall (fun y => y_who y <> Ground) l /\ between Nobody p p1 /\
  ps_fired (prop_ctrl 7 C30_cfg C30_ok p1) <> ps_fired p1 /\ d_sched (ps_drv (prop_ctrl 7 C30_cfg C30_ok p1)) = [100; 0; 0; 50].
Proof.
  assert (B : between Manager (pst_init p_disabled) C30_idle).
  { split; [exists 0%nat; reflexivity|]. cbn. repeat (split; [reflexivity|]). auto. }
  pose proof (prun_cons _ _ _ _ _ 7 C30_cfg C30_ok (prun_nil (pst_init p_disabled)) B) as R1.
  pose proof (prun_cons _ _ _ _ _ 7 C30_cfg C30_ok R1 (between_same _)) as R2.
  pose proof (prun_cons _ _ _ _ _ 7 C30_cfg C30_ok R2 (between_same _)) as R3.
  pose proof (prun_cons _ _ _ _ _ 7 C30_cfg C30_ok R3 (between_same _)) as R4.
  eexists _, _, _. split; [exact R4|]. split; [repeat constructor; discriminate|]. split; [apply between_same|].
  split; vm_compute; [discriminate|reflexivity].
Qed.

(** * C31: every schedule judged valid can be loaded *)
Theorem C31_most_schedules_loaded_partial : forall l d, d_on d = false -> Forall (fun v => v = 0 \/ 10 <= v <= 999) l ->
  snd (drv_set_schedule l d) = true /\ d_sched (fst (drv_set_schedule l d)) = l.
Proof. exact schedule_loaded. Qed.
Print Assumptions C31_most_schedules_loaded_partial.

(** 1000 ms is judged valid and refused by the driver: the firing is counted, and nothing is fired *)
Theorem C31_longest_firing_refused_refuted : exists c p, valid_schedule c 2 /\ c_sched c = [1000; 1000; 1000; 1000] /\
  let p' := prop_ctrl 7 c C30_ok p in
  ps_state p' = p_firing /\ ps_fired p' = ps_fired p + 1 /\ d_sched (ps_drv p') = [0; 0; 0; 0].
Proof.
  exists (mk_pcfg [1000; 1000; 1000; 1000] 0 0 50 1 1 1 1 0), (ps_set_until (pst_init p_await_firing) 1).
  split; [split; [repeat constructor; cbn; lia|lia]|]. split; [reflexivity|]. vm_compute. auto.
Qed.
Print Assumptions C31_longest_firing_refused_refuted.
(** and a request under 10 ms is dropped *)
Theorem C31_short_firing_dropped_refuted : exists l, is_valid_schedule l 2 = true /\
  fst (drv_set_schedule l drv_init) <> mk_d (d_t1 drv_init) (d_t2 drv_init) l (d_on drv_init).
Proof. exists [9; 100; 0; 0]. split; [reflexivity|]. vm_compute. discriminate. Qed.
Print Assumptions C31_short_firing_dropped_refuted.

Example C31_example : drv_set_schedule [999; 0; 10; 500] drv_init = (mk_d [false; false] (repeat false 4) [999; 0; 10; 500] false, true).
Proof. reflexivity. Qed.

(** * C32: pressurization attempts are bounded *)
Theorem C32_valve_follows_the_fill_schedule : forall fill cool mx u n p, 0 <= fill -> 0 <= cool -> 0 <= mx < 2 ^ 32 -> pressing fill cool mx u n p ->
  let F := Z.max fill 1 in let P := F + Z.max cool 1 in
  n <= mx * P /\
  (1 <= n -> exists v, (v < 2)%nat /\ forall i, nth_error (d_t1 (ps_drv p)) i = Some true <-> i = v /\ (n - 1) mod P < F).
Proof. exact pressing_schedule. Qed.
Print Assumptions C32_valve_follows_the_fill_schedule.

Theorem C32_at_most_the_configured_openings : forall fill cool mx u n p, 0 <= fill -> 0 <= cool -> 0 <= mx < 2 ^ 32 -> pressing fill cool mx u n p ->
  a_count (ps_press p) <= mx.
Proof. exact pressing_count. Qed.
Print Assumptions C32_at_most_the_configured_openings.

Example C32_cfg : pcfg := mk_pcfg [100; 0; 0; 50] 0 0 50 1 3 2 4 0.
Example C32_low : sens := mk_sens false false false false true.
Example C32_p (k : nat) : pst := Nat.iter k (prop_ctrl 7 C32_cfg C32_low) (ps_set_until (ps_set_state (pst_init p_disabled) p_pressurizing) 30).
(** three openings of two evaluations with four in between: 18 evaluations, then out of cycles *)
Example C32_example : pressing 2 4 3 30 18 (C32_p 18) /\ ps_state (C32_p 19) <> p_pressurizing.
Proof.
  assert (K : forall k, (k <= 18)%nat -> pressing 2 4 3 30 (Z.of_nat k) (C32_p k)).
  { induction k as [|k IH]; intros H; [constructor; reflexivity|].
    replace (Z.of_nat (S k)) with (Z.of_nat k + 1) by lia. change (C32_p (S k)) with (prop_ctrl 7 C32_cfg C32_low (C32_p k)).
    apply (pressing_step _ _ _ _ _ (C32_p k) (C32_p k)); [apply IH; lia|apply between_same|reflexivity|reflexivity|reflexivity|reflexivity|cbn; lia|].
    clear IH. do 18 (destruct k as [|k]; [vm_compute; reflexivity|]). lia. }
  split; [apply (K 18%nat); lia|]. vm_compute. discriminate.
Qed.

(** * C52: thruster valves are closed outside firing and venting, and never two valves are open outside firing *)
Theorem C52_closed_outside_firing_partial : forall p0 l p, prun p0 l p -> Forall (fun y => y_who y <> Ground) l ->
  ps_state p0 = p_disabled -> none_open (d_t1 (ps_drv p0)) -> none_open (d_t2 (ps_drv p0)) -> d_on (ps_drv p0) = false ->
  ps_state p <> p_firing ->
  d_on (ps_drv p) = false /\
  (ps_state p <> p_venting -> none_open (d_t2 (ps_drv p))) /\
  (ps_state p <> p_venting -> ps_state p <> p_pressurizing -> none_open (d_t1 (ps_drv p))) /\
  (forall t u i j, drv_is_open t i (ps_drv p) = true -> drv_is_open u j (ps_drv p) = true -> t = u /\ i = j).
Proof. exact valves_outside_firing. Qed.
Print Assumptions C52_closed_outside_firing_partial.

(** the ground opens a thruster by hand and goes back to idle: the thruster stays open *)
Theorem C52_idle_after_manual_refuted : exists l p, prun (pst_init p_disabled) l p /\ ps_state p = p_idle /\
  nth_error (d_t2 (ps_drv p)) 0 = Some true.
Proof.
  assert (B : between Ground (pst_init p_disabled) (ps_set_state (pst_init p_disabled) p_manual)).
  { split; [exists 0%nat; reflexivity|]. cbn. auto. }
  pose proof (prun_cons _ _ _ _ _ 7 C30_cfg C30_ok (prun_nil (pst_init p_disabled)) B) as R1.
  match type of R1 with prun _ _ ?x => assert (B2 : between Ground x (ps_set_state x p_idle)) end.
  { split; [exists 0%nat; reflexivity|]. cbn [ps_press ps_vent ps_fired ps_set_state]. auto. }
  pose proof (prun_cons _ _ _ _ _ 7 (mk_pcfg [0; 0; 0; 0] 0 0 50 1 1 1 1 0) C30_ok R1 B2) as R2.
  eexists _, _. split; [exact R2|]. vm_compute. auto.
Qed.
Print Assumptions C52_idle_after_manual_refuted.

(** a run without the ground that ends pressurizing with the valve open *)
Example C52_example : exists l p, prun (pst_init p_disabled) l p /\ Forall (fun y => y_who y <> Ground) l /\ ps_state p = p_pressurizing /\
  drv_is_open T1 0 (ps_drv p) = true.
Proof.
  assert (B : between Manager (pst_init p_disabled) C30_idle).
  { split; [exists 0%nat; reflexivity|]. cbn. repeat (split; [reflexivity|]). auto. }
  pose proof (prun_cons _ _ _ _ _ 7 C30_cfg C32_low (prun_nil (pst_init p_disabled)) B) as R1.
  pose proof (prun_cons _ _ _ _ _ 7 C30_cfg C32_low R1 (between_same _)) as R2.
  eexists _, _. split; [exact R2|]. split; [repeat constructor; discriminate|]. vm_compute. auto.
Qed.

(** * C53: a firing scheduled early enough is not abandoned for lack of time *)
Theorem C53_pressurization_starts_with_the_time_it_needs : forall cc c s p,
  0 <= c_fill c -> 0 <= c_cool c -> 0 <= c_max_press c -> c_max_press c * (c_fill c + c_cool c) + 4 < 2 ^ 32 -> c_fill c + c_cool c < 2 ^ 32 ->
  ps_state p = p_await_pressurizing -> c_max_press c * (c_fill c + c_cool c) + 3 < ps_until p ->
  ps_state (prop_ctrl cc c s p) = p_pressurizing ->
  ps_until (prop_ctrl cc c s p) = c_max_press c * (c_fill c + c_cool c) + 3.
Proof. exact starts_in_time. Qed.
Print Assumptions C53_pressurization_starts_with_the_time_it_needs.

Theorem C53_never_given_up_for_lack_of_time : forall fill cool mx u n p p1 cc c s,
  1 <= fill -> 1 <= cool -> 0 <= mx < 2 ^ 32 -> mx * (fill + cool) + 3 <= u ->
  pressing fill cool mx u n p -> between Nobody p p1 -> ps_until p1 = ps_until p -> ps_state (prop_ctrl cc c s p1) <> p_idle.
Proof. exact pressing_in_time. Qed.
Print Assumptions C53_never_given_up_for_lack_of_time.

(** the case of C32_example meets the hypotheses: 3 * (2 + 4) + 3 <= 30 *)
Example C53_example : 3 * (2 + 4) + 3 <= 30 /\ pressing 2 4 3 30 18 (C32_p 18).
Proof. split; [lia|]. exact (proj1 C32_example). Qed.
Example C53_example_start : let p := ps_set_until (pst_init p_await_pressurizing) 22 in
  c_max_press C32_cfg * (c_fill C32_cfg + c_cool C32_cfg) + 3 < ps_until p /\ ps_state (prop_ctrl 7 C32_cfg C32_low p) = p_pressurizing.
Proof. vm_compute. auto. Qed.
(** with one cycle less the attempt is given up *)
Example C53_too_late : ps_state (Nat.iter 19 (prop_ctrl 7 C32_cfg C32_low) (ps_set_until (pst_init p_pressurizing) 20)) = p_idle.
Proof. vm_compute. reflexivity. Qed.

Ltac all_bounded := repeat (apply Forall_cons; [cbv beta; lia|]); apply Forall_nil.
(** * C54: a firing ends, and ends with the thrusters shut *)
Theorem C54_firing_lasts_at_most_336_ticks : forall l n p, firing_for l n p -> (n < 337)%nat.
Proof. exact firing_bounded. Qed.
Print Assumptions C54_firing_lasts_at_most_336_ticks.

Theorem C54_leaving_firing_closes_thrusters : forall cc c s p, ps_state p = p_firing -> ps_state (prop_ctrl cc c s p) <> p_firing ->
  none_open (d_t2 (ps_drv (prop_ctrl cc c s p))) /\ d_on (ps_drv (prop_ctrl cc c s p)) = false.
Proof. exact firing_left. Qed.
Print Assumptions C54_leaving_firing_closes_thrusters.

Example C54_await : pst := ps_set_until (pst_init p_await_firing) 1.
Example C54_started l : Forall (fun v => 0 <= v <= 999) l -> length l = 4%nat -> fst (drv_set_schedule l drv_init) = mk_d [false; false] (repeat false 4) l false ->
  ps_fired (prop_ctrl 7 (mk_pcfg l 0 0 50 1 1 1 1 0) C30_ok C54_await) <> ps_fired C54_await ->
  firing_for l 0 (prop_ctrl 7 (mk_pcfg l 0 0 50 1 1 1 1 0) C30_ok C54_await).
Proof.
  intros H1 H2 H3 H4. apply firing_start; try assumption; try reflexivity. intros j. destruct j as [|[|[|[|[|j]]]]]; discriminate.
Qed.
(** 999 ms on valve 4 behind the three others: still firing after 335 ticks, over after 336 *)
Example C54_long : list Z := [10; 10; 10; 999].
Example C54_c : pcfg := mk_pcfg C54_long 0 0 50 1 1 1 1 0.
Example C54_at (k : nat) : pst := ps_set_drv (prop_ctrl 7 C54_c C30_ok C54_await) (after_ticks k (ps_drv (prop_ctrl 7 C54_c C30_ok C54_await))).
Example C54_example : firing_for C54_long 335 (prop_ctrl 7 C54_c C30_ok (C54_at 335)) /\ ps_state (prop_ctrl 7 C54_c C30_ok (C54_at 336)) = p_idle.
Proof.
  split; [|vm_compute; reflexivity].
  unfold C54_long.
  pose proof (C54_started [10; 10; 10; 999] ltac:(all_bounded) eq_refl eq_refl ltac:(vm_compute; discriminate)) as S.
  exact (firing_step _ _ 335 _ (C54_at 335) 7 C54_c C30_ok S eq_refl eq_refl ltac:(vm_compute; reflexivity)).
Qed.

(** * C55: a firing that ends by itself gave every valve its scheduled open time *)
Theorem C55_open_time_delivered_partial : forall l n p k p1 cc c s i v,
  firing_for l n p -> ps_drv p1 = after_ticks k (ps_drv p) -> ps_state p1 = ps_state p ->
  ps_state (prop_ctrl cc c s p1) = p_idle -> nth_error l i = Some v ->
  v / 3 - 1 <= Z.of_nat (ticks_open l (k + n) i) <= v / 3 /\ (v mod 3 <> 0 -> Z.of_nat (ticks_open l (k + n) i) = v / 3).
Proof. exact firing_complete. Qed.
Print Assumptions C55_open_time_delivered_partial.

(** the schedule is used up at the start of the last interval: a controller cycle that falls in it closes the valve *)
Theorem C55_last_interval_cut_refuted : exists l p p1 cc c s, firing_for l 0 p /\ ps_drv p1 = after_ticks 100 (ps_drv p) /\ ps_state p1 = ps_state p /\
  nth_error l 0 = Some 300 /\ nth_error (d_t2 (ps_drv p1)) 0 = Some true /\
  ps_state (prop_ctrl cc c s p1) = p_idle /\ nth_error (d_t2 (ps_drv (prop_ctrl cc c s p1))) 0 = Some false /\ ticks_open l 100 0 = 99%nat.
Proof.
  set (c0 := mk_pcfg [300; 0; 0; 0] 0 0 50 1 1 1 1 0). set (q := prop_ctrl 7 c0 C30_ok C54_await).
  exists [300; 0; 0; 0], q, (ps_set_drv q (after_ticks 100 (ps_drv q))), 7, c0, C30_ok.
  split; [apply C54_started; [all_bounded|reflexivity|reflexivity|vm_compute; discriminate]|].
  repeat (split; [vm_compute; reflexivity|]). vm_compute. reflexivity.
Qed.
Print Assumptions C55_last_interval_cut_refuted.

Example C55_example : exists p p1, firing_for [100; 0; 0; 50] 0 p /\ ps_drv p1 = after_ticks 40 (ps_drv p) /\ ps_state p1 = ps_state p /\
  ps_state (prop_ctrl 7 C30_cfg C30_ok p1) = p_idle /\ ticks_open [100; 0; 0; 50] 40 0 = 33%nat.
Proof.
  set (q := prop_ctrl 7 C30_cfg C30_ok C54_await). exists q, (ps_set_drv q (after_ticks 40 (ps_drv q))).
  split; [apply (C54_started [100; 0; 0; 50]); [all_bounded|reflexivity|reflexivity|vm_compute; discriminate]|].
  repeat (split; [vm_compute; reflexivity|]). vm_compute. reflexivity.
Qed.
