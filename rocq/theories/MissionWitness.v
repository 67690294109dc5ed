(** Concrete environments and histories used by the refutations and examples of PropertiesMission. *)
From Verif Require Import Base FaultModel FaultHandlerModel FaultHandlerSpec FaultHandlerProofs FaultEscalationProofs
  MissionModel MissionSpec MissionProofs.

(** an uneventful environment: recent contact, no faults; designation, propulsion state and docking limit chosen *)
Definition quiet (d p lim : Z) (w : world) : world :=
  let h := wh w in let m := wm w in
  mk_world
    (mk_h (u32 (hc h + 1)) (mk_bus (b_mission (hb h)) p 0 false (u32 (hc h + 1)) 20 0 (b_enter_ca (hb h)))
          (fun _ => fault_make 100) (mk_q 0 (q_entry (hq h)) true) (mk_k false one_day 100 (k_last_rtk (hk h))) (hv h) true)
    (mk_m (mm_adcs m) d (mm_adcs_dcdc m) (mm_sph_dcdc m) true (mm_enter_docking m) lim (mm_elapsed m) (mm_deployed m) (mm_reset m)
          false false 0 (mm_safehold_begin m) (mm_have_entry m)).

Lemma quiet_env d p lim w : environment false w (quiet d p lim w).
Proof. unfold environment. repeat split. Qed.

Lemma quiet_safehold d p lim w : ~ response_safehold (quiet d p lim w).
Proof.
  intros (_ & [(_ & X)|[(_ & i & _ & X)|[(_ & X)|(_ & X & _)]]]); try (vm_compute in X; discriminate X).
Qed.

Lemma quiet_standby d p lim w : p <> p_handling_fault -> p <> p_venting -> ~ response_standby (quiet d p lim w).
Proof.
  intros N1 N2 (_ & _ & [(_ & X)|[(_ & X)|[(X & _)|[X|X]]]]).
  - vm_compute in X. discriminate X.
  - destruct X as [(_ & _ & X)|[(X & _)|((X & _) & _)]].
    + unfold silent_for in X. cbn in X. rewrite Z.sub_diag in X. vm_compute in X. apply X. reflexivity.
    + discriminate X.
    + vm_compute in X. apply X. reflexivity.
  - discriminate X.
  - contradiction.
  - contradiction.
Qed.

Lemma quiet_venting d lim w : response_standby (quiet d p_venting lim w).
Proof.
  pose proof (quiet_safehold d p_venting lim w) as A. split; [reflexivity|]. split; [intros X; apply A; split; [reflexivity|exact X]|].
  right; right; right. right. reflexivity.
Qed.

Lemma no_response_dispatch i w : no_response w -> exists h, mission_execute i w = dispatch i (wmission w) (with_h w h) /\
  wmission (with_h w h) = wmission w /\ wcc (with_h w h) = wcc w.
Proof.
  intros (N1 & N2). unfold mission_execute. destruct (main_split w) as (h & r & E & A & B & _ & C & D). rewrite E.
  exists h. split; [|split; [exact B|exact A]].
  destruct r; [|exfalso; apply N1, C; reflexivity|exfalso; apply N2, D; reflexivity].
  destruct (negb _); reflexivity.
Qed.

Definition no_inputs : inputs := mk_in false false false false false false.
Definition near_inputs : inputs := mk_in true true true true true false.

Definition keeps_docking (w w' : world) : Prop :=
  mm_have_entry (wm w') = mm_have_entry (wm w) /\ mm_enter_docking (wm w') = mm_enter_docking (wm w) /\ wcc w' = u32 (wcc w + 1).

(** standby, nothing happening *)
Lemma idle_standby w : wmission w = m_standby ->
  exists w', cycle false no_inputs w w' /\ wmission w' = m_standby /\ keeps_docking w w'.
Proof.
  intros HM. set (w1 := quiet d_undecided p_idle one_day w).
  assert (NR : no_response w1) by (split; [apply quiet_safehold|apply quiet_standby; discriminate]).
  destruct (no_response_dispatch no_inputs w1 NR) as (h & E & M & C).
  assert (M1 : wmission w1 = m_standby) by exact HM. rewrite M1 in *.
  eexists. split; [exists w1; split; [apply quiet_env|rewrite E; reflexivity]|].
  change (dispatch_standby (with_h w1 h)) with (with_h w1 h). split; [exact M|].
  unfold keeps_docking. rewrite C. repeat split.
Qed.

Lemma idle_standby_many n : forall w, wmission w = m_standby -> 0 <= wcc w -> wcc w + Z.of_nat n < 2 ^ 32 ->
  exists l w', length l = n /\ history l w w' /\ wmission w' = m_standby /\ mm_have_entry (wm w') = mm_have_entry (wm w) /\
    mm_enter_docking (wm w') = mm_enter_docking (wm w) /\ wcc w' = wcc w + Z.of_nat n.
Proof.
  induction n as [|n IH]; intros w HM H0 HB.
  - exists [], w. split; [reflexivity|]. split; [constructor|]. repeat split; auto. lia.
  - destruct (IH w HM H0 ltac:(lia)) as (l & w1 & L & HH & M & A & B & C).
    destruct (idle_standby w1 M) as (w2 & CY & M2 & (A2 & B2 & C2)).
    exists (l ++ [false]), w2. split; [rewrite app_length, L; cbn; lia|]. split; [econstructor; eassumption|].
    split; [exact M2|]. split; [congruence|]. split; [congruence|]. rewrite C2, C. rewrite u32_id; lia.
Qed.

(** the way from standby to docking as a follower *)
Lemma approach_step s i d next : 
  (s = m_standby /\ i = no_inputs /\ d = d_follower /\ next = m_follower) \/
  (s = m_follower /\ i = near_inputs /\ d = d_follower /\ next = m_follower_close_approach) \/
  (s = m_follower_close_approach /\ i = near_inputs /\ d = d_follower /\ next = m_docking) ->
  forall w, wmission w = s -> exists w', cycle false i w w' /\ wmission w' = next /\ keeps_docking w w'.
Proof.
  intros HS w HM. set (w1 := quiet d p_idle one_day w).
  assert (NR : no_response w1) by (split; [apply quiet_safehold|apply quiet_standby; discriminate]).
  destruct (no_response_dispatch i w1 NR) as (h & E & M & C).
  assert (M1 : wmission w1 = s) by exact HM. rewrite M1 in *. unfold wcc in C. cbn in C.
  destruct HS as [(-> & -> & -> & ->)|[(-> & -> & -> & ->)|(-> & -> & -> & ->)]];
    (eexists; split; [exists w1; split; [apply quiet_env|rewrite E; reflexivity]|]; split; [reflexivity|];
     unfold keeps_docking; unfold wcc at 1; cbn; rewrite C; repeat split).
Qed.

(** first docking at cycle 1; leaving it by a propulsion fault in cycle 2; a day later docking again: it is abandoned
    in its first cycle, although the limit is a day *)
Definition fresh_docking : world :=
  mk_world (mk_h 0 (mk_bus m_docking p_idle 0 false 0 20 0 0) (fun _ => fault_make 100) (mk_q 0 0 true) (mk_k true one_day 100 0)
                 (mk_v 20 0 false) true)
           (mk_m a_zero_torque d_follower true true true 0 one_day 106 true false false false 0 0 false).

Lemma stale_docking : exists l w w1 w2 w3,
  history l fresh_docking w /\ wmission w = m_follower_close_approach /\
  cycle false near_inputs w w1 /\ wmission w1 = m_docking /\
  environment false w1 w2 /\ no_response w2 /\ mm_dock_limit (wm w2) = one_day /\
  mission_execute near_inputs w2 = Some w3 /\ wmission w3 = m_standby.
Proof.
  (* cycle 1: in docking *)
  set (e1 := quiet d_follower p_idle one_day fresh_docking).
  assert (N1 : no_response e1) by (split; [apply quiet_safehold|apply quiet_standby; discriminate]).
  destruct (no_response_dispatch near_inputs e1 N1) as (h1 & E1 & M1 & C1).
  set (x1 := dispatch_docking near_inputs (with_h e1 h1)).
  assert (X1 : mission_execute near_inputs e1 = Some x1) by (rewrite E1; reflexivity).
  destruct (dispatch_docking_spec near_inputs (with_h e1 h1)) as (F1 & F2 & F3). fold x1 in F1, F2, F3.
  assert (D1 : wmission x1 = m_docking).
  { rewrite F1. cbn [near_inputs i_docked]. rewrite C1. cbn [with_h wm].
    change (mm_have_entry (wm e1)) with false. cbn iota. rewrite Z.sub_diag. exact M1. }
  destruct (F2 eq_refl) as (G1 & G2); [rewrite M1; exact D1|rewrite M1; discriminate|].
  change (mm_have_entry (wm (with_h e1 h1))) with false in G2. cbn iota in G2. rewrite C1 in F3, G2.
  change (wcc e1) with 1 in F3, G2.
  (* cycle 2: propulsion venting *)
  set (e2 := quiet d_follower p_venting one_day x1).
  destruct (main_split e2) as (h2 & r2 & E2 & A2 & B2 & _ & _ & S2).
  assert (R2 : r2 = RStandby) by (apply S2, quiet_venting). subst r2.
  set (x2 := upd_m (transition2 m_standby a_point_standby (with_h e2 h2)) (fun m => m_set_desig m d_undecided)).
  assert (X2 : mission_execute no_inputs e2 = Some x2).
  { unfold mission_execute. rewrite E2. replace (wmission e2) with m_docking by (symmetry; exact D1). reflexivity. }
  assert (K2 : mm_have_entry (wm x2) = true /\ mm_enter_docking (wm x2) = 1 /\ wcc x2 = 2 /\ wmission x2 = m_standby).
  { split; [exact G1|]. split; [exact G2|]. split; [|reflexivity]. transitivity (wcc e2); [exact A2|].
    change (wcc e2) with (u32 (wcc x1 + 1)). rewrite F3. reflexivity. }
  destruct K2 as (K2a & K2b & K2c & K2d).
  (* a day in standby *)
  destruct (idle_standby_many (Z.to_nat one_day) x2) as (l & x3 & LL & H3 & M3 & P3 & Q3 & C3);
    [exact K2d|lia|rewrite K2c, Z2Nat.id by (vm_compute; discriminate); reflexivity|].
  rewrite Z2Nat.id in C3 by (vm_compute; discriminate).
  (* follower, close approach, docking *)
  destruct (approach_step m_standby no_inputs d_follower m_follower ltac:(auto 12) x3 M3) as (x4 & Y4 & M4 & (P4 & Q4 & C4)).
  destruct (approach_step m_follower near_inputs d_follower m_follower_close_approach ltac:(auto 12) x4 M4) as (x5 & Y5 & M5 & (P5 & Q5 & C5)).
  destruct (approach_step m_follower_close_approach near_inputs d_follower m_docking ltac:(auto 12) x5 M5) as (x6 & Y6 & M6 & (P6 & Q6 & C6)).
  set (e7 := quiet d_follower p_idle one_day x6).
  assert (N7 : no_response e7) by (split; [apply quiet_safehold|apply quiet_standby; discriminate]).
  destruct (no_response_dispatch near_inputs e7 N7) as (h7 & E7 & M7 & C7).
  assert (M7' : wmission e7 = m_docking) by exact M6. rewrite M7' in E7, M7.
  exists ((([] ++ [false]) ++ [false]) ++ l ++ [false] ++ [false]), x5, x6, e7, (dispatch_docking near_inputs (with_h e7 h7)).
  split.
  { assert (A : history (([] ++ [false]) ++ [false]) fresh_docking x2).
    { econstructor; [econstructor; [constructor|]|].
      - exists e1. split; [apply quiet_env|exact X1].
      - exists e2. split; [apply quiet_env|exact X2]. }
    assert (T : forall l2 y z, history l2 y z -> forall l1 x, history l1 x y -> history (l1 ++ l2) x z).
    { clear. induction 1 as [|l2 y z g i z2 HH IH HC]; intros l1 x HL; [rewrite app_nil_r; exact HL|].
      rewrite app_assoc. econstructor; [apply IH; exact HL|exact HC]. }
    apply (T (l ++ [false] ++ [false]) x2 x5); [|exact A].
    apply (T ([false] ++ [false]) x3 x5); [|exact H3].
    change ([false] ++ [false]) with (([] ++ [false]) ++ [false]).
    econstructor; [econstructor; [constructor|exact Y4]|exact Y5]. }
  split; [exact M5|]. split; [exact Y6|]. split; [exact M6|]. split; [apply quiet_env|]. split; [exact N7|]. split; [reflexivity|].
  split; [rewrite E7; reflexivity|].
  destruct (dispatch_docking_spec near_inputs (with_h e7 h7)) as (-> & _ & _). cbn [near_inputs i_docked].
  rewrite C7. cbn [with_h wm]. change (mm_have_entry (wm e7)) with (mm_have_entry (wm x6)).
  change (mm_enter_docking (wm e7)) with (mm_enter_docking (wm x6)). change (mm_dock_limit (wm e7)) with one_day.
  rewrite P6, P5, P4, P3, K2a. rewrite Q6, Q5, Q4, Q3, K2b.
  assert (CC : wcc e7 = one_day + 6).
  { change (wcc e7) with (u32 (wcc x6 + 1)). rewrite C6, C5, C4, C3, K2c. reflexivity. }
  rewrite CC. reflexivity.
Qed.

(** ** Safehold with the radio handler in its last stage *)
Definition only_tick (w : world) : world := with_h w (mk_h (u32 (wcc w + 1)) (hb (wh w)) (hf (wh w)) (hq (wh w)) (hk (wh w)) (hv (wh w)) (h_enabled (wh w))).
Lemma only_tick_env w : environment false w (only_tick w).
Proof. unfold environment. repeat split. Qed.

(** the radio handler has tried everything and still hears nothing *)
Definition unheard (w : world) : Prop :=
  h_enabled (wh w) = true /\ q_enabled (hq (wh w)) = true /\ q_state (hq (wh w)) = q_safehold /\ ~ radio_off (wh w) /\ one_day <= silent_for (wh w).

Lemma unheard_response w : unheard w -> response_safehold w.
Proof. intros (A & B & C & D & E). split; [exact A|]. right; right; right. auto. Qed.

(** cycles spent in safehold unheard *)
Inductive unheard_cycles : nat -> world -> world -> Prop :=
| u_nil w : unheard_cycles 0 w w
| u_more n w w1 e i w2 : unheard_cycles n w w1 -> environment false w1 e -> unheard e -> mm_reset (wm e) = mm_reset (wm w1) ->
    mission_execute i e = Some w2 -> unheard_cycles (S n) w w2.

Lemma unheard_no_reset n w w' : unheard_cycles n w w' -> wmission w = m_safehold ->
  wmission w' = m_safehold /\ mm_reset (wm w') = mm_reset (wm w).
Proof.
  induction 1 as [w|n w w1 e i w2 HU IH EN UN ER EX]; intros HM; [auto|]. destruct (IH HM) as (M & R).
  destruct EN as (_ & E2 & _). specialize (E2 eq_refl). rewrite M in E2.
  destruct (safehold_restarts i e w2 E2 (unheard_response _ UN) EX) as (A & _).
  split; [rewrite <- E2; apply stays_put with i; auto|congruence].
Qed.

Lemma main_unheard w h r : main_execute main_machines (wh w) = (h, r) -> unheard w -> wmission w = m_safehold ->
  hb h = hb (wh w) /\ hq h = hq (wh w) /\ hk h = hk (wh w) /\ hv h = hv (wh w) /\ h_enabled h = h_enabled (wh w).
Proof.
  intros E (A & B & C & D & F) HM. unfold main_execute in E. rewrite A in E. cbn [negb] in E.
  unfold wmission in HM.
  assert (SE : forall i l r, existsb (Z.eqb m_safehold) l = false -> simple_execute i l r (wh w) = (wh w, RNone)).
  { intros i l rr HL. unfold simple_execute. rewrite HM, HL. reflexivity. }
  unfold main_machines in E. cbn [run_machines] in E.
  rewrite (SE LowBatt) in E by reflexivity. cbn [run_machines] in E.
  rewrite (SE Wheel1) in E by reflexivity. cbn [run_machines] in E.
  rewrite (SE Wheel2) in E by reflexivity. cbn [run_machines] in E.
  rewrite (SE Wheel3) in E by reflexivity. cbn [run_machines] in E.
  rewrite (SE WheelPot) in E by reflexivity. cbn [run_machines] in E.
  rewrite (SE PressurizeFail) in E by reflexivity. cbn [run_machines] in E.
  rewrite (SE AttEstimator) in E by reflexivity. cbn [run_machines] in E.
  assert (Q : quake_execute (wh w) = (wh w, RSafehold)).
  { unfold quake_execute. rewrite B, C. cbn. unfold q_disp_safehold, radio_is_disabled, recent_comms.
    destruct (Z.eqb_spec (b_radio (hb (wh w))) r_disabled) as [R|R]; [contradiction|].
    unfold silent_for in F. unfold u32, uwrap. destruct (Z.ltb_spec ((hc (wh w) - b_last_comms (hb (wh w))) mod 2 ^ 32) one_day); [lia|reflexivity]. }
  rewrite Q in E. injection E as <- <-. auto.
Qed.

(** after three days without contact: last message in cycle 0, now cycle 2,000,000 *)
Definition lost_contact : world :=
  mk_world (mk_h 2000000 (mk_bus m_safehold p_disabled 0 false 0 20 0 0) (fun _ => fault_make 100) (mk_q q_safehold 1524703 true)
                 (mk_k true one_day 100 0) (mk_v 20 0 false) true)
           (mk_m a_startup d_undecided false false true 0 one_day 106 true false false false 0 1524704 false).

Lemma unheard_forever n : Z.of_nat n < 2 ^ 32 - 2000000 -> exists w, unheard_cycles n lost_contact w /\
  wcc w = 2000000 + Z.of_nat n /\ b_last_comms (hb (wh w)) = 0 /\ b_radio (hb (wh w)) = 0 /\ hq (wh w) = mk_q q_safehold 1524703 true /\
  h_enabled (wh w) = true /\ wmission w = m_safehold.
Proof.
  induction n as [|n IH]; intros HB.
  - exists lost_contact. split; [constructor|]. repeat split.
  - destruct (IH ltac:(lia)) as (w & HU & C & L & R & Q & E & M).
    set (e := only_tick w).
    assert (CE : wcc e = 2000000 + Z.of_nat n + 1).
    { unfold e, only_tick, wcc. cbn. fold (wcc w). rewrite C. apply u32_id. lia. }
    assert (UN : unheard e).
    { unfold unheard, e, only_tick. cbn. rewrite E, Q. cbn. unfold radio_off, silent_for. cbn. rewrite R, L.
      repeat split; auto; try discriminate. fold (wcc w). rewrite C. rewrite u32_id by lia. rewrite Z.sub_0_r, Z.mod_small by lia.
      rewrite one_day_val. lia. }
    assert (ME : wmission e = m_safehold) by exact M.
    destruct (safehold_response_total no_inputs e (unheard_response _ UN)) as (w2 & X); [rewrite ME; discriminate ..|].
    exists w2. split; [econstructor; [exact HU|apply only_tick_env|exact UN|reflexivity|exact X]|].
    destruct (main_execute main_machines (wh e)) as [h r] eqn:EM.
    destruct (main_unheard e h r EM UN ME) as (B1 & B2 & B3 & B4 & B5).
    pose proof X as X'. unfold mission_execute in X'. rewrite EM, ME in X'. cbn in X'.
    assert (RS : r = RSafehold).
    { destruct (main_split e) as (h' & r' & EM' & _ & _ & _ & RR & _). rewrite EM in EM'. injection EM' as <- <-. apply RR, unheard_response, UN. }
    subst r. injection X' as <-.
    pose proof (main_same (wh e)) as (CC & _). rewrite EM in CC. cbn in CC.
    split; [transitivity (wcc e); [exact CC|rewrite CE; lia]|].
    split; [transitivity (b_last_comms (hb h)); [reflexivity|rewrite B1; exact L]|].
    split; [transitivity (b_radio (hb h)); [reflexivity|rewrite B1; exact R]|].
    split; [transitivity (hq h); [reflexivity|rewrite B2; exact Q]|].
    split; [transitivity (h_enabled h); [reflexivity|rewrite B5; exact E]|reflexivity].
Qed.
