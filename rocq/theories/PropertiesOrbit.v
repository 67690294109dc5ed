(** * Orbit control: thrust allocation, planning of firings, smoothing, and the handover to propulsion *)
From Verif Require Import Base FaultModel FaultHandlerModel PropModel PropSpec OrbitModel OrbitJointModel OrbitSpec OrbitProofs OrbitTaskProofs PropertiesProp.
From Coq Require Import QArith Qabs.
Local Open Scope Z_scope.

(** * C40 Thrust allocation: no negative impulse, the commanded one in sum, and the non-negative least-norm one if there is any *)
Theorem C40_nonnegative : forall J, nonneg4 (impulses J).
Proof. exact impulses_nonneg. Qed.
Print Assumptions C40_nonnegative.
(** the error is that of the eleven digits in the source *)
Theorem C40_sum : forall m J, within m J -> close (m * (1 # 10000000000)) (net (impulses J)) J.
Proof. exact impulses_net. Qed.
Print Assumptions C40_sum.
(** a least-norm solution with no negative impulse exists only for the zero command *)
Theorem C40_least_norm : forall J y, nonneg4 y -> close 0 (net y) J -> (forall y', close 0 (net y') J -> norm4 y <= norm4 y')%Q ->
  (total4 y == 0)%Q /\ (total4 (impulses J) == 0)%Q.
Proof. exact least_norm_zero. Qed.
Print Assumptions C40_least_norm.
Example C40_case : within 1 (V3 (-(1 # 2)) (1 # 4) 1) /\
  (let '(x1, x2, x3, x4) := impulses (V3 (-(1 # 2)) (1 # 4) 1) in 0 < x1 + x2 /\ 0 < x3 /\ 0 < x4)%Q.
Proof. vm_compute. repeat split; discriminate. Qed.
Example C40_case_zero : nonneg4 (0, 0, 0, 0)%Q /\ close 0 (net (0, 0, 0, 0)%Q) (V3 0 0 0) /\ (forall y', close 0 (net y') (V3 0 0 0) -> norm4 (0, 0, 0, 0)%Q <= norm4 y')%Q.
Proof.
  split; [vm_compute; repeat split; discriminate|]. split; [vm_compute; repeat split; discriminate|]. intros [[[a b] c] d] _. unfold norm4.
  Lqa.nra.
Qed.

(** * C86 The allocation spends no more propellant than any other that gives the impulse *)
(** holds if no thruster would have to pull, or if the second one would have to pull hardest *)
Theorem C86_least_propellant_partial : forall m J y, within m J -> nonneg4 y -> close 0 (net y) J ->
  (let p1 := x1_of (v3x J) (v3y J) (v3z J) 0 in let p2 := x2_of (v3x J) (v3y J) (v3z J) 0 in let p3 := x3_of (v3x J) (v3y J) (v3z J) 0 in
   (0 <= p1 /\ 0 <= p2 /\ 0 <= p3) \/ (p2 <= p1 /\ p2 <= p3))%Q ->
  (total4 (impulses J) <= total4 y + m * (1 # 1000000000))%Q.
Proof. intros m J y W Y E H. exact (impulses_least m J y W Y E H). Qed.
Print Assumptions C86_least_propellant_partial.
(** in any case at most five times the least *)
Theorem C86_five_times_partial : forall m J y, within m J -> nonneg4 y -> close 0 (net y) J ->
  (total4 (impulses J) <= 5 * total4 y + m * (1 # 1000000000))%Q.
Proof. exact impulses_bound. Qed.
Print Assumptions C86_five_times_partial.
(** an impulse one thruster gives alone takes more than four times as much *)
Theorem C86_least_propellant_refuted : exists J y, nonneg4 y /\ close 0 (net y) J /\ (4 * total4 y < total4 (impulses J))%Q.
Proof. exact impulses_not_least. Qed.
Print Assumptions C86_least_propellant_refuted.
Example C86_case : let J := net (1, 2, 0, 0)%Q in within 3 J /\ nonneg4 (1, 2, 0, 0)%Q /\ close 0 (net (1, 2, 0, 0)%Q) J /\
  (x2_of (v3x J) (v3y J) (v3z J) 0 > 1)%Q.
Proof. vm_compute. repeat split; discriminate. Qed.

(** * C87 The opening time is the longest whole number of milliseconds that does not give more than the impulse wanted *)
Theorem C87_opening_time : forall x t, (0 <= x)%Q -> impulse_to_time x = Some t ->
  0 <= t /\ (x < impulse_of (t + 1))%Q /\ (t = 0 \/ (impulse_of t <= x)%Q).
Proof. exact time_exact. Qed.
Print Assumptions C87_opening_time.
Theorem C87_defined : forall x, (0 <= x <= 50000)%Q -> exists t, impulse_to_time x = Some t.
Proof. exact time_defined. Qed.
Print Assumptions C87_defined.
Example C87_case : impulse_to_time (1 # 100) = Some 411 /\ impulse_to_time 0 = Some 0.
Proof. vm_compute. auto. Qed.

(** * C88 Every impulse the controller commands can be fired *)
Theorem C88_acceptable_partial : forall J l, within (75 # 10000) J -> schedule_valves J = Some l -> length l = 4%nat /\ Forall (fun t => 0 <= t <= 1000) l.
Proof. exact schedule_accepted. Qed.
Print Assumptions C88_acceptable_partial.
Theorem C88_defined_partial : forall J, within 10000 J -> exists l, schedule_valves J = Some l.
Proof. exact schedule_defined. Qed.
Print Assumptions C88_defined_partial.
(** 0.02 Ns along one axis is too much, although the telemetered range goes to 0.025 ... *)
Theorem C88_too_long_refuted : exists l, schedule_valves (V3 0 (2 # 100) 0) = Some l /\ Exists (fun t => 1000 < t) l.
Proof. exact schedule_too_long. Qed.
Print Assumptions C88_too_long_refuted.
(** ... and as long as the command stays too large propulsion fires nothing at all *)
Theorem C88_nothing_fired_refuted : forall l s p s' p', joint_run l (s, p) = Some (s', p') -> not_begun p ->
  Forall (fun y => may_plan (snd y) /\ forall dr dv g v, schedule_valves (snd (oi_J (snd y) dr dv g)) = Some v -> Exists (fun t => 1000 < t) v) l ->
  ps_fired p' = ps_fired p /\ not_begun p'.
Proof. exact too_large_never_fired. Qed.
Print Assumptions C88_nothing_fired_refuted.

(** inputs of the examples: follower, far field, a node five cycles ahead, one orbit in 5550 s *)
Definition x_in (mission : Z) (J : vec3) : oin :=
  mk_oi true true true 1 (V3 1 2 3) (V3 0 0 0) mission p_idle 1 1 1 ((1 # 3) - (1 # 2775) * (86 # 100)) (1 # 2775) (fun _ _ _ => (J, J)).
Definition x_s : ost := mk_os (4 # 10) 180 None None None (V3 0 0 0) [0; 0; 0; 0] 0.
Definition x_p : pst := pst_init p_idle.
Definition x_cycle (mission : Z) (J : vec3) : Z * pcfg * sens * oin := (7, C30_cfg, C30_ok, x_in mission J).
Lemma run_some {A} (o : option (A * pst)) (P : A -> pst -> Prop) : match o with Some (s, p) => P s p | None => False end -> exists s p, o = Some (s, p) /\ P s p.
Proof. destruct o as [[s p]|]; [|intros []]. intros H. exists s, p. auto. Qed.
Definition small : vec3 := V3 (5 # 1000) (-(2 # 1000)) (1 # 1000).
Definition large : vec3 := V3 0 (2 # 100) 0.

Example C88_case : exists s p, joint_run [x_cycle 4 large; x_cycle 4 large; x_cycle 4 large] (x_s, x_p) = Some (s, p) /\ not_begun x_p /\
  ps_until p = 4 /\ os_valves s = [749; 1081; 749; 1081].
Proof. apply run_some. vm_compute. repeat split; discriminate. Qed.

(** * C89 Impulse, valve times and countdown change only while a firing may be planned *)
Theorem C89_gated : forall i s s', orbit_execute i s = Some s' ->
  os_valves s' <> os_valves s \/ os_J s' <> os_J s \/ os_until s' <> os_until s ->
  oi_time i = true /\ oi_orbit i = true /\ oi_att i = true /\ oi_rel i <> 0 /\ (oi_mission i = 4 \/ oi_mission i = 6).
Proof. exact execute_frame. Qed.
Print Assumptions C89_gated.
(** and then the countdown only if propulsion is idle, to the whole cycles until the next node, not far beyond the time propulsion needs *)
Theorem C89_countdown : forall i s s', orbit_execute i s = Some s' -> os_until s' <> os_until s ->
  0 <= oi_press i -> 0 <= oi_fill i -> 0 <= oi_cool i -> oi_fill i + oi_cool i < 2 ^ 32 -> needed i + 10 < 2 ^ 32 ->
  may_plan i /\ oi_prop i = p_idle /\ 0 <= os_until s' <= needed i + 10 /\
  exists t, time_till_node (oi_rel i) (os_n s) (oi_theta i) (oi_w i) = Some t /\ (0 < oi_w i -> inject_Z (os_until s') <= t * 1000 / 170 < inject_Z (os_until s' + 1))%Q.
Proof. exact countdown_set. Qed.
Print Assumptions C89_countdown.
(** the next node is the one reached first *)
Theorem C89_next_node : forall theta w nodes, (0 < w)%Q ->
  match next_node theta w nodes with
  | Some t => (exists n, In n nodes /\ ahead theta w n t) /\ (forall n t', In n nodes -> ahead theta w n t' -> t <= t')%Q
  | None => forall n t', In n nodes -> ~ ahead theta w n t'
  end.
Proof. exact next_node_spec. Qed.
Print Assumptions C89_next_node.
Example C89_case : match orbit_execute (x_in 4 small) x_s with Some s' => os_until s' = 5 /\ os_valves s' <> os_valves x_s | None => False end.
Proof. vm_compute. split; [reflexivity|discriminate]. Qed.

(** * C90 The smoothed relative state lies between the measurements since the last outage *)
Theorem C90_between : forall l s, oruns l s ->
  match l with
  | [] => os_dr s = None /\ os_dv s = None
  | _ => exists r v, os_dr s = Some r /\ os_dv s = Some v /\ hull (map fst l) r /\ hull (map snd l) v
  end.
Proof. exact oruns_hull. Qed.
Print Assumptions C90_between.
Theorem C90_restart : forall r v s, oruns [(r, v)] s -> os_dr s = Some r /\ os_dv s = Some v.
Proof. exact oruns_fresh. Qed.
Print Assumptions C90_restart.
Example C90_case : exists s, oruns [(V3 1 2 3, V3 0 0 0); (V3 1 2 3, V3 0 0 0)] s.
Proof.
  destruct (orbit_execute (x_in 4 small) x_s) as [s1|] eqn:E1; [|vm_compute in E1; discriminate E1].
  assert (E2 : exists s2, orbit_execute (x_in 3 small) s1 = Some s2) by (eexists; reflexivity). destruct E2 as [s2 E2]. exists s2.
  assert (R1 : oruns [(V3 1 2 3, V3 0 0 0)] s1).
  { eapply (or_cycle [] x_s x_s (x_in 4 small) s1); [constructor; reflexivity|reflexivity|reflexivity|vm_compute; split; discriminate|exact E1]. }
  apply (or_cycle _ s1 s1 (x_in 3 small) s2 R1); [reflexivity|reflexivity| |exact E2].
  vm_compute in E1. injection E1 as <-. vm_compute. split; discriminate.
Qed.

(** * C91 The countdown ends when the satellite is at a firing node *)
(** on the half of the orbit that follows the sun line *)
Theorem C91_at_node_partial : forall phi theta w t rel n, (0 < w)%Q -> (0 <= phi)%Q -> (theta == Qabs phi)%Q -> time_till_node rel n theta w = Some t ->
  exists node, In node (if rel =? 2 then near_nodes n else far_nodes) /\ (position phi w t == node)%Q.
Proof. exact node_reached. Qed.
Print Assumptions C91_at_node_partial.
(** on the other half the angle the code uses has lost its sign, and the firing comes at no node *)
Theorem C91_at_node_refuted : exists phi w t, (0 < w /\ time_till_node 1 180 (Qabs phi) w = Some t)%Q /\
  forall node, In node far_nodes -> ~ same_place (position phi w t) node.
Proof. exact node_missed. Qed.
Print Assumptions C91_at_node_refuted.
(** the third far node is never fired at *)
Theorem C91_third_node_unused_refuted : forall theta w t, (0 <= theta)%Q -> (0 < w)%Q -> next_node theta w far_nodes = Some t ->
  ahead theta w (1 # 3) t \/ ahead theta w 1 t.
Proof. exact third_node_unused. Qed.
Print Assumptions C91_third_node_unused_refuted.
Example C91_case : (match time_till_node 1 180 (Qabs (1 # 4)) (1 # 2775) with Some t => t == 2775 # 12 | None => False end)%Q.
Proof. vm_compute. reflexivity. Qed.

(** * C92 The commanded number of near-field nodes is the number fired at, evenly spread, with gains to match *)
(** up to 180: so many nodes, two degrees apart from the sun line on *)
Theorem C92_nodes_partial : forall n x, 1 <= n <= 180 ->
  (exists y, In y (near_nodes n) /\ (x == y)%Q) <-> (-1 < x <= 1)%Q /\ exists k, 0 <= k < n /\ same_place x (k # 90).
Proof. exact near_nodes_few. Qed.
Print Assumptions C92_nodes_partial.
(** not spread over the orbit: ten nodes are all within twenty degrees *)
Theorem C92_spread_refuted : forall x, In x (near_nodes 10) -> (0 <= x <= 1 # 10)%Q.
Proof. apply Forall_forall. vm_compute. repeat (constructor; [split; discriminate|]). constructor. Qed.
Print Assumptions C92_spread_refuted.
(** none commanded: all of them *)
Theorem C92_zero_refuted : near_nodes 0 = near_nodes 360.
Proof. vm_compute. reflexivity. Qed.
Print Assumptions C92_zero_refuted.
(** the gains follow the number in the first planned cycle only *)
Theorem C92_gain_refuted : forall i s s', orbit_execute i s = Some s' -> os_gain s <> None -> os_gain s' = os_gain s.
Proof. exact gain_stays. Qed.
Print Assumptions C92_gain_refuted.
Definition gain_in : oin := mk_oi true true true 2 (V3 1 2 3) (V3 0 0 0) 4 p_idle 1 1 1 (1 # 3) (1 # 2775) (fun _ _ g => (V3 g 0 0, V3 0 0 0)).
Example C92_case : match orbit_execute gain_in x_s with
  | Some s => v3x (os_J s) == 60 /\
              match orbit_execute gain_in (mk_os (os_alpha s) 30 (os_dr s) (os_dv s) (os_gain s) (os_J s) (os_valves s) (os_until s)) with
              | Some s' => v3x (os_J s') == 60 | None => False end
  | None => False end%Q.
Proof. vm_compute. auto. Qed.

(** * C93 No firing after the satellite has left the follower states *)
(** if nothing was planned when it left them *)
Theorem C93_no_firing_partial : forall l s p s' p', joint_run l (s, p) = Some (s', p') -> resting p ->
  Forall (fun y => ~ may_plan (snd y)) l -> ps_fired p' = ps_fired p.
Proof. exact no_plan_no_firing. Qed.
Print Assumptions C93_no_firing_partial.
(** a planned firing takes place all the same: one cycle as a follower, then standby *)
Theorem C93_planned_firing_refuted : exists s p, joint_run (x_cycle 4 small :: repeat (x_cycle 3 small) 4) (x_s, x_p) = Some (s, p) /\
  ps_fired x_p = 0 /\ ps_fired p = 1 /\ ps_state p = p_firing /\ d_sched (ps_drv p) = [364; 227; 237; 0] /\ d_on (ps_drv p) = true.
Proof. apply run_some. vm_compute. auto 10. Qed.
Print Assumptions C93_planned_firing_refuted.
Example C93_case : exists s p, joint_run (repeat (x_cycle 3 small) 20) (x_s, x_p) = Some (s, p) /\ resting x_p /\ ~ may_plan (x_in 3 small).
Proof.
  apply run_some. assert (R : match joint_run (repeat (x_cycle 3 small) 20) (x_s, x_p) with Some (_, _) => True | None => False end) by (vm_compute; exact I).
  destruct (joint_run _ _) as [[s p]|]; [|destruct R]. split; [vm_compute; repeat split; discriminate|]. intros (_ & _ & _ & _ & [H|H]); discriminate H.
Qed.

(** * C94 A firing that starts is loaded with the valve times of the latest impulse *)
Theorem C94_current_schedule_partial : forall cc c sn i s p s' p', joint_cycle cc c sn i (s, p) = Some (s', p') -> ps_fired p' <> ps_fired p ->
  d_on (ps_drv p) = false -> Forall (fun v => v = 0 \/ 10 <= v <= 999) (os_valves s') -> d_sched (ps_drv p') = os_valves s' /\ d_on (ps_drv p') = true.
Proof. exact fires_current. Qed.
Print Assumptions C94_current_schedule_partial.
(** if the impulse has grown too large since pressurization, a firing is counted in which no valve opens *)
Theorem C94_empty_firing_refuted : exists s p, joint_run (repeat (x_cycle 4 small) 4 ++ [x_cycle 4 large]) (x_s, x_p) = Some (s, p) /\
  ps_fired p = 1 /\ d_sched (ps_drv p) = [0; 0; 0; 0] /\ os_valves s = [749; 1081; 749; 1081].
Proof. apply run_some. vm_compute. auto 10. Qed.
Print Assumptions C94_empty_firing_refuted.
Example C94_case : exists s p, joint_run (repeat (x_cycle 4 small) 4) (x_s, x_p) = Some (s, p) /\ d_on (ps_drv p) = false /\
  exists s' p', joint_cycle 7 C30_cfg C30_ok (x_in 4 small) (s, p) = Some (s', p') /\ ps_fired p' <> ps_fired p /\ os_valves s' = [364; 227; 237; 0].
Proof.
  apply run_some. assert (R : match joint_run (repeat (x_cycle 4 small) 4) (x_s, x_p) with Some (s, p) => d_on (ps_drv p) = false /\
    match joint_cycle 7 C30_cfg C30_ok (x_in 4 small) (s, p) with Some (s', p') => ps_fired p' <> ps_fired p /\ os_valves s' = [364; 227; 237; 0] | None => False end
    | None => False end) by (vm_compute; repeat split; discriminate).
  destruct (joint_run _ _) as [[s p]|]; [|exact R]. destruct R as [R1 R]. split; [exact R1|]. apply run_some. exact R.
Qed.

(** * C95 A planned firing leaves propulsion the time it needs to pressurize *)
(** not in the near field: with the parameters the code starts with, anywhere on the first half of an orbit of at most two
    hours, the countdown given is at most 235 cycles where 1264 are needed *)
Theorem C95_near_field_refuted : forall i s s', orbit_execute i s = Some s' -> os_until s' <> os_until s ->
  oi_press i = 20 -> oi_fill i = 5 -> oi_cool i = 58 -> os_n s = 180 -> oi_rel i = 2 ->
  (0 <= oi_theta i < 1)%Q -> (1 # 3600 <= oi_w i)%Q -> os_until s' <= 235 /\ needed i = 1264.
Proof. exact near_field_short. Qed.
Print Assumptions C95_near_field_refuted.
(** it does if a cycle before the node was still too far away to plan for *)
Theorem C95_planned_early_partial : forall i s s' t0, orbit_execute i s = Some s' -> os_until s' <> os_until s ->
  0 <= oi_press i -> 0 <= oi_fill i -> 0 <= oi_cool i -> oi_fill i + oi_cool i < 2 ^ 32 -> needed i + 10 < 2 ^ 32 -> (0 < oi_w i)%Q ->
  (inject_Z (needed i + 10) < t0 * 1000 / 170)%Q ->
  (forall t, time_till_node (oi_rel i) (os_n s) (oi_theta i) (oi_w i) = Some t -> t0 - 1 <= t)%Q -> needed i + 4 <= os_until s'.
Proof. exact planned_early. Qed.
Print Assumptions C95_planned_early_partial.
Example C95_case_early : match orbit_execute (mk_oi true true true 1 (V3 1 2 3) (V3 0 0 0) 4 p_idle 20 5 58 ((1 # 3) - (1 # 2775) * (216 # 1)) (1 # 2775) (fun _ _ _ => (small, small))) x_s with
  | Some s' => os_until s' = 1270 | None => False end.
Proof. vm_compute. reflexivity. Qed.
Example C95_case : match orbit_execute (mk_oi true true true 2 (V3 1 2 3) (V3 0 0 0) 4 p_idle 20 5 58 (1 # 300) (1 # 2775) (fun _ _ _ => (small, small))) x_s with
  | Some s' => os_until s' = 126 | None => False end.
Proof. vm_compute. reflexivity. Qed.
