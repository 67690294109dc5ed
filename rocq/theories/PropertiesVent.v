(** Theorems about venting. *)
From Verif Require Import Base FaultModel FaultHandlerModel PropModel PropSpec PropRunProofs VentSpec VentProofs.

(** * C175: venting relieves a tank whose fault is in force *)

(** the tank chosen on entry asks for relief; if both ask it is the one not vented last; entering opens nothing *)
Theorem C175_vents_a_tank_that_asks : forall st y l p, prun (pst_init st) (y :: l) p ->
  ps_state (y_before y) <> p_venting -> ps_state (y_after y) = p_venting ->
  asks (y_after y) (vented (y_after y)) = true /\
  (asks (y_after y) T1 = true -> asks (y_after y) T2 = true -> vented (y_after y) = other (vented (y_before y))) /\
  ps_drv (y_after y) = ps_drv (y_before y).
Proof. exact venting_relieves. Qed.
Print Assumptions C175_vents_a_tank_that_asks.

(** every valve opened while venting belongs to the chosen tank, which asks for relief at that moment *)
Theorem C175_opens_only_the_chosen_tank : forall st y l p t i, prun (pst_init st) (y :: l) p -> ps_state (y_before y) = p_venting ->
  opens (ps_drv (y_before y)) (ps_drv (y_after y)) t i ->
  t = vented (y_before y) /\ asks (y_after y) t = true /\ ps_state (y_after y) = p_venting /\
  a_count (vt_act (ps_vent (y_before y))) < c_max_vent (y_cfg y) /\
  a_count (vt_act (ps_vent (y_after y))) = u32 (a_count (vt_act (ps_vent (y_before y))) + 1) /\
  i = match t with T1 => c_t1_valve (y_cfg y) | T2 => Z.to_nat (vt_saved (ps_vent (y_before y)) mod 4) end.
Proof. exact venting_opens. Qed.
Print Assumptions C175_opens_only_the_chosen_tank.

(** the thruster valves take turns: the k-th one opened is number k modulo 4, across any number of ventings *)
Theorem C175_thrusters_take_turns : forall l p, prun (pst_init p_disabled) l p -> Forall (fun y => y_who y <> Ground) l ->
  thrusters_vented l = map (fun k => (k mod 4)%nat) (seq 0 (length (thrusters_vented l))).
Proof. intros l p H G. exact (proj2 (thrusters_turns l p H G)). Qed.
Print Assumptions C175_thrusters_take_turns.

(** a tank that asks for relief gets it: a functional system waiting or firing turns to the fault, and then vents *)
Theorem C175_a_tank_that_asks_is_vented : forall st y l p, prun (pst_init st) (y :: l) p -> s_func (y_sens y) = true ->
  asks (y_after y) T1 || asks (y_after y) T2 = true ->
  (In (ps_state (y_before y)) [p_idle; p_await_pressurizing; p_await_firing; p_firing] -> ps_state (y_after y) = p_handling_fault) /\
  (ps_state (y_before y) = p_handling_fault -> ps_state (y_after y) = p_venting).
Proof. exact fault_is_served. Qed.
Print Assumptions C175_a_tank_that_asks_is_vented.

(** * C176: venting ends *)

(** it ends with the fault, or after the configured number of openings, and then in the states the operators expect *)
Theorem C176_ends_with_the_fault : forall st y l p, prun (pst_init st) (y :: l) p -> ps_state (y_before y) = p_venting ->
  let t := vented (y_before y) in
  (asks (y_after y) t = false -> ps_state (y_after y) = if s_func (y_sens y) then p_idle else p_disabled) /\
  (asks (y_after y) t = true -> ps_state (y_after y) <> p_venting ->
     c_max_vent (y_cfg y) <= a_count (vt_act (ps_vent (y_before y))) /\
     ps_state (y_after y) = if s_func (y_sens y) && ((c_max_vent (y_cfg y) =? 1) || asks (y_after y) (other t)) then p_handling_fault else p_disabled).
Proof. exact venting_stops. Qed.
Print Assumptions C176_ends_with_the_fault.

(** an episode under fixed parameters: exactly when a valve is open, and how long it can last *)
Theorem C176_valve_follows_the_vent_schedule : forall fill close mx t n p, 0 <= fill -> 0 <= close -> 0 <= mx < 2 ^ 32 -> venting fill close mx t n p ->
  let F := Z.max fill 1 in let P := F + Z.max close 1 in
  n <= mx * P /\ a_count (vt_act (ps_vent p)) <= mx /\
  exists v, forall u i, drv_is_open u i (ps_drv p) = true <-> 1 <= n /\ u = t /\ i = v /\ (n - 1) mod P < F.
Proof. exact venting_schedule. Qed.
Print Assumptions C176_valve_follows_the_vent_schedule.

(** ** A flight: both tanks ask for relief from the start; three openings of two cycles, shut for one cycle *)
Example vent_cfg : pcfg := mk_pcfg [0; 0; 0; 0] 0 0 3 1 3 2 4 1.
Example vent_hot : sens := mk_sens false true true false true.
Fixpoint vent_flight (n : nat) : list pcycle * pst :=
  match n with
  | O => ([], pst_init p_disabled)
  | S k => let '(l, p) := vent_flight k in
    let who := match k with O => Manager | _ => Nobody end in
    let p1 := match k with O => ps_set_state p p_idle | _ => p end in
    let p2 := prop_ctrl (Z.of_nat n) vent_cfg vent_hot p1 in
    (mk_pc who (Z.of_nat n) vent_cfg vent_hot p1 p2 :: l, p2)
  end.
Lemma vent_flight_is_a_run n : prun (pst_init p_disabled) (fst (vent_flight n)) (snd (vent_flight n)) /\ Forall (fun y => y_who y <> Ground) (fst (vent_flight n)).
Proof.
  induction n as [|n (IH & IG)]; [split; constructor|]. destruct n as [|n].
  - split; [|constructor; [discriminate|constructor]]. eapply prun_cons; [apply prun_nil|]. split; [exists 0%nat; reflexivity|]. cbn. repeat (split; [reflexivity|]). auto.
  - change (vent_flight (S (S n))) with (let '(l, p) := vent_flight (S n) in
      let p2 := prop_ctrl (Z.of_nat (S (S n))) vent_cfg vent_hot p in (mk_pc Nobody (Z.of_nat (S (S n))) vent_cfg vent_hot p p2 :: l, p2)).
    destruct (vent_flight (S n)) as [l p]. cbn [fst snd] in *. cbv zeta. split; [|constructor; [discriminate|exact IG]].
    eapply prun_cons; [exact IH|]. split; [exists 0%nat; reflexivity|]. repeat split; reflexivity.
Qed.
(** the tanks alternate, and the thrusters take turns across episodes *)
Example C175_flight : thrusters_vented (fst (vent_flight 60)) = [0; 1; 2; 3; 0; 1; 2; 3]%nat /\
  map (fun n => vented (snd (vent_flight n))) [12; 23; 34]%nat = [T2; T1; T2].
Proof. vm_compute. auto. Qed.
(** three openings of two evaluations with one in between: nine evaluations, then out of cycles, and the other tank *)
Example C176_flight : map (fun n => ps_state (snd (vent_flight n))) [11; 12; 21; 22; 23]%nat = [p_handling_fault; p_venting; p_venting; p_handling_fault; p_venting] /\
  map (fun n => drv_is_open T2 0 (ps_drv (snd (vent_flight n)))) [12; 13; 14; 15]%nat = [false; true; true; false].
Proof. vm_compute. auto. Qed.
Example C176_episode : venting 2 1 3 T2 9 (snd (vent_flight 21)).
Proof.
  assert (STEP : forall n, vent_flight (S (S n)) = let '(l, p) := vent_flight (S n) in
      let p2 := prop_ctrl (Z.of_nat (S (S n))) vent_cfg vent_hot p in (mk_pc Nobody (Z.of_nat (S (S n))) vent_cfg vent_hot p p2 :: l, p2)) by reflexivity.
  assert (NEXT : forall n, snd (vent_flight (S (S n))) = prop_ctrl (Z.of_nat (S (S n))) vent_cfg vent_hot (snd (vent_flight (S n)))).
  { intros n. rewrite STEP. destruct (vent_flight (S n)). reflexivity. }
  assert (K : forall k, (k <= 9)%nat -> venting 2 1 3 T2 (Z.of_nat k) (snd (vent_flight (12 + k)))).
  { induction k as [|k IH]; intros H.
    - rewrite Nat.add_0_r, (NEXT 10%nat). apply venting_enter; try (vm_compute; congruence).
      + intros j. do 3 (destruct j as [|j]; [vm_compute; discriminate|]). destruct j; vm_compute; discriminate.
      + intros j. do 5 (destruct j as [|j]; [vm_compute; discriminate|]). destruct j; vm_compute; discriminate.
    - replace (Z.of_nat (S k)) with (Z.of_nat k + 1) by lia. replace (12 + S k)%nat with (S (S (11 + k))) by lia. rewrite NEXT.
      apply (venting_step _ _ _ _ _ (snd (vent_flight (12 + k)))).
      + apply IH. lia.
      + split; [exists 0%nat; reflexivity|]. repeat split; reflexivity.
      + reflexivity.
      + reflexivity.
      + reflexivity.
      + cbn. lia.
      + clear IH. do 9 (destruct k as [|k]; [vm_compute; reflexivity|]). lia. }
  apply (K 9%nat). lia.
Qed.
