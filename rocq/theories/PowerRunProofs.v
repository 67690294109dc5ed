From Verif Require Import Base FaultModel FaultHandlerModel MissionModel MissionSpec MissionProofs PowerModel PowerSpec PowerProofs.
From Coq Require Import QArith Qround.
Local Open Scope Z_scope.

(** * Who is touched *)

Lemma cycle_one_touch e g tr j x v : In (x, v) (snd (cycle_one e (g, tr) j)) ->
  In (x, v) tr \/ (c_cyc g x = true /\ v = negb (f_out g x)).
Proof.
  unfold cycle_one. destruct (c_cyc g j) eqn:C; [|auto].
  destruct (f_out g j) eqn:F; cbn [snd]; intros H; apply in_app_or in H; destruct H as [H|[H|[]]]; auto;
    injection H as <- <-; right; rewrite F; auto.
Qed.
Lemma cycle_one_cyc e g tr j x : c_cyc (fst (cycle_one e (g, tr) j)) x = true -> c_cyc g x = true.
Proof.
  unfold cycle_one. destruct (c_cyc g j) eqn:C; [|auto].
  destruct (f_out g j); cbn [fst]; unfold set_cyc, set_single; destruct (Nat.ltb 5 j); cbn; auto;
    unfold fset; destruct (Nat.eqb x j); auto; discriminate.
Qed.
Lemma cycle_list_touch e l : forall g tr x v, In (x, v) (snd (fold_left (cycle_one e) l (g, tr))) ->
  In (x, v) tr \/ (c_cyc g x = true /\ v = negb (f_out g x)).
Proof.
  induction l as [|j l IH]; intros g tr x v H; [auto|]. cbn [fold_left] in H.
  destruct (cycle_one e (g, tr) j) as [g1 t1] eqn:E. apply IH in H.
  pose proof (cycle_one_touch e g tr j x v) as T. pose proof (cycle_one_cyc e g tr j x) as Y.
  pose proof (cycle_one_fixed e g tr j) as F. cbv zeta in F. rewrite E in T, Y, F. cbn [fst snd] in T, Y, F.
  destruct F as (_ & _ & F & _). destruct H as [H|[H1 H2]]; [auto|]. right. rewrite F in H2. auto.
Qed.

Lemma exec_touch cc e g g' t x v : gom_exec cc e g = Some (g', t) -> In (x, v) t ->
  (c_cyc g x = true /\ v = negb (f_out g x)) \/ (x = 0%nat /\ v = false /\ c_off g = true).
Proof.
  unfold gom_exec. intros HX HI.
  set (g0 := if cc =? 1 then first_cycle e (get_hk e g) else get_hk e g) in HX.
  assert (A : (c_cyc g0 x = true -> c_cyc g x = true) /\ f_out g0 = f_out g /\ c_off g0 = c_off g).
  { unfold g0, first_cycle, get_hk. destruct (cc =? 1), (ge_hk e); cbn; repeat split; auto; discriminate. }
  destruct A as (A1 & A2 & A3). destruct (c_period g0 =? 0); [discriminate|].
  destruct (if cc mod c_period g0 =? 0 then cycle_outputs e g0 else (g0, [])) as [g1 t1] eqn:E.
  assert (B : In (x, v) t1 -> c_cyc g x = true /\ v = negb (f_out g x)).
  { intros H. destruct (cc mod c_period g0 =? 0); [|injection E as <- <-; destruct H].
    unfold cycle_outputs in E. pose proof (cycle_list_touch e ((if c_off g0 then [] else [0%nat]) ++ [1; 2; 3; 4; 5]%nat) g0 [] x v) as T.
    rewrite E in T. cbn [snd] in T. destruct (T H) as [[]|[T1 T2]]. rewrite A2 in T2. auto. }
  assert (C : c_off g1 = c_off g).
  { rewrite <- A3. destruct (cc mod c_period g0 =? 0); [|injection E as <- <-; reflexivity]. unfold cycle_outputs in E.
    pose proof (cycle_list_fixed e ((if c_off g0 then [] else [0%nat]) ++ [1; 2; 3; 4; 5]%nat) g0 []) as F. cbv zeta in F. rewrite E in F. apply F. }
  pose proof (rest_fixed e g1) as R. cbv zeta in R. destruct R as [R _].
  change (c_off (publish (heater_step e (ppt_step e (pv_step e g1))))) with (c_off (heater_step e (ppt_step e (pv_step e g1)))) in HX.
  rewrite R, C in HX. destruct (c_off g) eqn:O; injection HX as _ <-; [|left; apply B, HI].
  apply in_app_or in HI. destruct HI as [HI|[HI|[]]]; [left; apply B, HI|]. injection HI as <- <-. right. auto.
Qed.

(** * Switching on an output that is off *)
Lemma power_on_run i cc n g tr g' : (i < 6)%nat -> 0 < c_period g < 2 ^ 32 -> c_cyc g i = true -> p_out g i = false -> f_out g i = false ->
  pcrun i cc n g tr g' ->
  ((sent i tr = [] /\ c_cyc g' i = true /\ p_out g' i = false) \/ (sent i tr = [true] /\ c_cyc g' i = false /\ p_out g' i = true)) /\
  (c_period g <= n -> p_out g' i = true).
Proof.
  intros Hi HP C1 C2 C3 HR.
  assert (INV : 0 <= n /\ c_period g' = c_period g /\
    ((hits (c_period g) cc (Z.to_nat n) = 0 /\ sent i tr = [] /\ c_cyc g' i = true /\ p_out g' i = false /\ f_out g' i = false) \/
     (sent i tr = [true] /\ c_cyc g' i = false /\ p_out g' i = true))).
  { revert C1 C2 C3 HP. induction HR as [g|n g tr g1 g2 e g3 t HR IH EL HW N1 HX]; intros C1 C2 C3 HP.
    - split; [lia|]. split; [reflexivity|]. left. repeat split; assumption.
    - destruct (IH C1 C2 C3 HP) as (I1 & I2 & I3). clear IH. destruct EL as (L1 & L2 & L3 & L4 & L5 & L6).
      destruct (exec_comp _ e g2 g3 t i Hi N1 HW L6 HX) as (X1 & X2 & X3 & X4). rewrite L5, I2 in X1, X2, X4.
      unfold comp in X1. injection X1 as Y1 Y2 Y3 Y4. rewrite L1, L3, L4 in *. split; [lia|]. split; [exact X4|].
      replace (Z.to_nat (n + 1)) with (S (Z.to_nat n)) by lia. cbn [hits].
      replace (cc + Z.of_nat (S (Z.to_nat n))) with (cc + (n + 1)) by lia. rewrite sent_app, X2, Y1, Y3, Y4.
      destruct I3 as [(D0 & D1 & D2 & D3 & D4)|(D1 & D2 & D3)]; rewrite D1, D2, D3; try rewrite D4, D0;
        destruct (u32 (cc + (n + 1)) mod c_period g =? 0); cbn; auto 10. }
  destruct INV as (I1 & I2 & I3). split; [tauto|]. intros L. destruct I3 as [(D & _)|D]; [|tauto].
  pose proof (hits_more (c_period g) cc 0 HP) as M. cbn [hits] in M.
  pose proof (hits_le (c_period g) cc (0 + Z.to_nat (c_period g)) (Z.to_nat n)). lia.
Qed.

(** * GPS receiver kept off *)
Lemma exec_off cc e g g' t : gom_exec cc e g = Some (g', t) -> c_off g = true -> ge_out e 0%nat = true -> p_out g' 0%nat = false.
Proof.
  unfold gom_exec. intros HX HO HE.
  set (g0 := if cc =? 1 then first_cycle e (get_hk e g) else get_hk e g) in HX.
  assert (A3 : c_off g0 = true) by (unfold g0, first_cycle, get_hk; destruct (cc =? 1), (ge_hk e); cbn; exact HO).
  destruct (c_period g0 =? 0); [discriminate|].
  destruct (if cc mod c_period g0 =? 0 then cycle_outputs e g0 else (g0, [])) as [g1 t1] eqn:E.
  assert (C : c_off g1 = true).
  { destruct (cc mod c_period g0 =? 0); [|injection E as <- <-; exact A3]. unfold cycle_outputs in E.
    pose proof (cycle_list_fixed e ((if c_off g0 then [] else [0%nat]) ++ [1; 2; 3; 4; 5]%nat) g0 []) as F. cbv zeta in F. rewrite E in F.
    cbn [fst] in F. destruct F as (F & _). congruence. }
  pose proof (rest_fixed e g1) as R. cbv zeta in R. destruct R as [R _].
  change (c_off (publish (heater_step e (ppt_step e (pv_step e g1))))) with (c_off (heater_step e (ppt_step e (pv_step e g1)))) in HX.
  rewrite R, C in HX. injection HX as <- _. unfold set_single. cbn. rewrite HE. reflexivity.
Qed.

(** * Heater, tracker mode, panel voltages *)
(** what reaches these steps after the power-cycling part *)
Lemma exec_parts cc e g g' t : working e -> cc <> 1 -> gom_exec cc e g = Some (g', t) ->
  p_heat g' = c_heat g /\ c_heat g' = c_heat g /\
  f_ppt g' = p_ppt g /\ c_ppt g' = c_ppt g /\
  p_ppt g' = (if negb (f_ppt g =? c_ppt g) && (c_ppt g <=? 2) then c_ppt g else p_ppt g) /\
  f_vb g' = p_vb g /\ c_pv g' = c_pv g /\
  (forall i, (i < 3)%nat -> p_vb g' i =
     if (f_ppt g =? 2) && (negb (f_vb g 0%nat =? c_pv g 0%nat) || negb (f_vb g 1%nat =? c_pv g 1%nat) || negb (f_vb g 2%nat =? c_pv g 2%nat))
     then bswap16 (c_pv g i) else p_vb g i).
Proof.
  intros (W1 & W2 & W3 & W4 & W5 & W6) N1 HX. unfold gom_exec in HX.
  apply Z.eqb_neq in N1. rewrite N1 in HX. destruct (c_period (get_hk e g) =? 0); [discriminate|].
  destruct (if cc mod c_period (get_hk e g) =? 0 then cycle_outputs e (get_hk e g) else (get_hk e g, [])) as [g1 t1] eqn:E.
  assert (F : f_ppt g1 = f_ppt g /\ k_ppt g1 = p_ppt g /\ p_ppt g1 = p_ppt g /\ c_ppt g1 = c_ppt g /\ p_heat g1 = p_heat g /\
    c_heat g1 = c_heat g /\ p_vb g1 = p_vb g /\ k_vb g1 = p_vb g /\ f_vb g1 = f_vb g /\ c_pv g1 = c_pv g).
  { unfold get_hk in E. rewrite W1 in E.
    match type of E with (if ?b then cycle_outputs e ?x else _) = _ => destruct b; [|injection E as <- <-; cbn; repeat split];
      pose proof (cycle_list_fixed e ((if c_off x then [] else [0%nat]) ++ [1; 2; 3; 4; 5]%nat) x []) as F end.
    cbv zeta in F. unfold cycle_outputs in E. rewrite E in F. cbn in F. tauto. }
  destruct F as (F1 & F2 & F3 & F4 & F5 & F6 & F7 & F8 & F9 & F10).
  assert (R : exists g2, g2 = heater_step e (ppt_step e (pv_step e g1)) /\ p_heat g2 = c_heat g /\ c_heat g2 = c_heat g /\ k_ppt g2 = p_ppt g /\ c_ppt g2 = c_ppt g /\
    p_ppt g2 = (if negb (f_ppt g =? c_ppt g) && (c_ppt g <=? 2) then c_ppt g else p_ppt g) /\ k_vb g2 = p_vb g /\ c_pv g2 = c_pv g /\
    (forall i, (i < 3)%nat -> p_vb g2 i =
     if (f_ppt g =? 2) && (negb (f_vb g 0%nat =? c_pv g 0%nat) || negb (f_vb g 1%nat =? c_pv g 1%nat) || negb (f_vb g 2%nat =? c_pv g 2%nat))
     then bswap16 (c_pv g i) else p_vb g i)).
  { eexists. split; [reflexivity|]. unfold pv_step. rewrite F1, F9, F10, W3.
    match goal with |- context [if ?b then mk_g _ _ _ _ _ _ _ _ _ _ _ _ _ _ _ _ else g1] => destruct b eqn:EV end;
      unfold ppt_step; cbn; rewrite ?F1, ?F4, W4, andb_true_r;
      destruct (negb (f_ppt g =? c_ppt g) && (c_ppt g <=? 2)); cbn; unfold heater_step, get_heater; cbn; rewrite ?F5, ?F6, W5, W6, andb_true_r;
      destruct (c_heat g) eqn:CH, (p_heat g) eqn:PH; cbn; rewrite ?F2, ?F3, ?F4, ?F5, ?F6, ?F7, ?F8, ?F10, ?PH, ?CH; repeat split; auto;
      intros i Hi; assert (Hj : (i <=? 2)%nat = true) by (apply Nat.leb_le; lia); rewrite ?Hj, ?F7; reflexivity. }
  destruct R as (g2 & E2 & R). rewrite <- E2 in HX. clear E2.
  destruct (c_off (publish g2)); injection HX as <- _; cbn; tauto.
Qed.

Lemma heater_follows cc e g g' t : working e -> cc <> 1 -> gom_exec cc e g = Some (g', t) -> p_heat g' = c_heat g.
Proof. intros W N X. apply (exec_parts cc e g g' t W N X). Qed.

Lemma tracker_follows cc1 e1 g g1 t1 cc2 e2 g1' g2 t2 : working e1 -> working e2 -> cc1 <> 1 -> cc2 <> 1 -> c_ppt g <= 2 ->
  gom_exec cc1 e1 g = Some (g1, t1) -> p_ppt g1' = p_ppt g1 -> f_ppt g1' = f_ppt g1 -> c_ppt g1' = c_ppt g1 ->
  gom_exec cc2 e2 g1' = Some (g2, t2) -> p_ppt g2 = c_ppt g.
Proof.
  intros W1 W2 N1 N2 L X1 E1 E2 E3 X2.
  destruct (exec_parts _ _ _ _ _ W1 N1 X1) as (_ & _ & A1 & A2 & A3 & _). destruct (exec_parts _ _ _ _ _ W2 N2 X2) as (_ & _ & _ & _ & B3 & _).
  rewrite B3, E1, E2, E3, A1, A2, A3. assert (LE : (c_ppt g <=? 2) = true) by lia. rewrite LE, !andb_true_r.
  destruct (Z.eqb_spec (p_ppt g) (c_ppt g)) as [Q|Q]; cbn [negb]; [|reflexivity].
  destruct (negb (f_ppt g =? c_ppt g)); congruence.
Qed.

Lemma voltage_sent cc e g g' t i : working e -> cc <> 1 -> gom_exec cc e g = Some (g', t) -> f_ppt g = 2 -> (i < 3)%nat ->
  f_vb g i <> c_pv g i -> p_vb g' i = bswap16 (c_pv g i).
Proof.
  intros W N X H2 Hi HN. destruct (exec_parts _ _ _ _ _ W N X) as (_ & _ & _ & _ & _ & _ & _ & A). rewrite (A i Hi), H2.
  assert (D : (2 =? 2) && (negb (f_vb g 0%nat =? c_pv g 0%nat) || negb (f_vb g 1%nat =? c_pv g 1%nat) || negb (f_vb g 2%nat =? c_pv g 2%nat)) = true).
  { apply Z.eqb_neq in HN. cbn [Z.eqb Pos.eqb andb]. destruct i as [|[|[|i]]]; [| | |lia]; rewrite HN; cbn [negb]; rewrite ?orb_true_r; reflexivity. }
  rewrite D. reflexivity.
Qed.

(** * DC-DC converters *)
Lemma dcdc_follow d : dc_a (dcdc_exec d) = dc_ca (dcdc_exec d) /\ dc_s (dcdc_exec d) = dc_cs (dcdc_exec d) /\
  dc_ra (dcdc_exec d) = dc_a (dcdc_exec d) /\ dc_rs (dcdc_exec d) = dc_s (dcdc_exec d) /\ dc_dis (dcdc_exec d) = false /\
  (dc_dis d = false -> dc_rst d = false -> dc_a (dcdc_exec d) = dc_ca d /\ dc_s (dcdc_exec d) = dc_cs d).
Proof. destruct d as [[] [] [] [] [] [] ra rs]; cbn; repeat split; discriminate. Qed.
Lemma dcdc_disable d : dc_dis d = true -> dc_rst d = false -> dc_a (dcdc_exec d) = false /\ dc_s (dcdc_exec d) = false.
Proof. destruct d as [[] [] [] [] [] [] ra rs]; cbn; repeat split; discriminate. Qed.
Lemma dcdc_reset d : dc_dis d = false -> dc_rst d = true -> dc_ca d || dc_cs d = true ->
  (dc_a (dcdc_exec d) = false /\ dc_s (dcdc_exec d) = false /\ dc_rst (dcdc_exec d) = true) /\
  (dc_a (dcdc_exec (dcdc_exec d)) = true /\ dc_s (dcdc_exec (dcdc_exec d)) = true /\ dc_rst (dcdc_exec (dcdc_exec d)) = false).
Proof. destruct d as [[] [] [] [] [] [] ra rs]; cbn; intros; try discriminate; repeat split. Qed.

(** * Docking motor *)
Definition dk_inv (n : Z) (d : dock) : Prop := exists k, dk_config d = Z.even k /\
  ((dk_turning d = false /\ at_rest d /\ dk_pos d = k * n) \/
   (dk_turning d = true /\ dk_timer d = true /\ dk_awake d = true /\ 0 <= dk_steps d /\ dk_pos d + dk_steps d = (k + 1) * n)).

Lemma dk_inv_tick n d : dk_inv n d -> dk_inv n (dock_tick d).
Proof.
  intros (k & C & H). exists k. unfold dock_tick. destruct H as [(T & (R1 & R2) & P)|(T & R1 & R2 & S0 & P)].
  - rewrite R1. split; [exact C|]. left. repeat split; assumption.
  - rewrite R1. destruct (Z.leb_spec 1 (dk_steps d)) as [L|L]; [|split; [exact C|right; repeat split; assumption]].
    destruct (dk_high d); cbn; (split; [exact C|]); right; rewrite ?R2; repeat split; auto; lia.
Qed.
Lemma even_succ_negb k : Z.even (k + 1) = negb (Z.even k).
Proof. rewrite <- Z.add_1_r || idtac. rewrite Z.even_add. cbn. destruct (Z.even k); reflexivity. Qed.
Lemma dk_inv_exec n angle cmd d d' : halfturn_steps angle = Some n -> 0 <= n -> dk_inv n d ->
  (dk_turning d = true -> cmd <> dk_config d) -> dock_exec cmd angle d = Some d' -> dk_inv n d'.
Proof.
  intros HN H0 (k & C & H) HC HX. unfold dock_exec, dock_start in HX. rewrite HN in HX.
  destruct (Bool.eqb cmd (dk_config d)) eqn:EB; cbn [negb] in HX.
  - apply Bool.eqb_prop in EB. injection HX as <-. exists k. cbn. split; [exact C|]. left.
    destruct H as [(T & R & P)|(T & _)]; [|destruct (HC T EB)]. repeat split; exact P.
  - destruct H as [(T & R & P)|(T & R1 & R2 & S0 & P)]; rewrite T in HX; injection HX as <-; cbn [dk_steps dock_set_turning].
    + destruct (Z.eqb_spec n 0) as [E|E].
      * exists (k + 1). cbn. rewrite even_succ_negb, <- C. split; [reflexivity|]. left. repeat split. lia.
      * exists k. cbn. split; [exact C|]. right. repeat split; lia.
    + destruct (Z.eqb_spec (dk_steps d) 0) as [E|E].
      * exists (k + 1). cbn. rewrite even_succ_negb, <- C. split; [reflexivity|]. left. repeat split. lia.
      * exists k. split; [exact C|]. right. repeat split; assumption.
Qed.
Lemma halfturn_nonneg angle n : halfturn_steps angle = Some n -> 0 <= n.
Proof.
  unfold halfturn_steps. destruct (Qle_bool angle (0 # 1)) eqn:E; [discriminate|]. cbv zeta.
  destruct (_ <? _); [|discriminate]. intros H. assert (HE : n = Qfloor ((180 # 1) / angle)) by congruence. rewrite HE. clear H HE.
  assert (P : (0 < angle)%Q). { destruct (Qlt_le_dec 0 angle) as [L|L]; [exact L|]. apply Qle_bool_iff in L. change (0 # 1)%Q with 0%Q in E. congruence. }
  change 0 with (Qfloor 0). apply Qfloor_resp_le. apply Qle_shift_div_l; [exact P|]. rewrite Qmult_0_l. discriminate.
Qed.
Lemma dk_run_inv angle n d d' : halfturn_steps angle = Some n -> dkrun angle d d' -> dk_inv n d -> dk_inv n d'.
Proof.
  intros HN HR. pose proof (halfturn_nonneg angle n HN) as H0. induction HR as [d|d d1 HR IH|d d1 cmd d2 HR IH HC HX]; intros HI; [exact HI| |].
  - apply dk_inv_tick, IH, HI.
  - apply (dk_inv_exec n angle cmd d1 d2 HN H0 (IH HI) HC HX).
Qed.
Lemma dk_flag angle n d : halfturn_steps angle = Some n -> dkrun angle dock_init d -> at_rest d -> flag_right n d.
Proof.
  intros HN HR (A1 & A2). destruct (dk_run_inv angle n _ _ HN HR) as (k & C & H).
  - exists 0. cbn. split; [reflexivity|]. left. repeat split.
  - exists k. split; [|exact C]. destruct H as [(_ & _ & P)|(_ & R & _)]; [exact P|congruence].
Qed.

(** * The GPS power switch and the mission manager *)
Lemma tr2_off s a w : mm_piksi_off (wm (transition2 s a w)) = mm_piksi_off (wm w).
Proof.
  unfold transition2, set_mission_state. destruct (s =? m_safehold); cbn [upd_m with_m wm];
    destruct ((s =? m_leader_close_approach) || (s =? m_follower_close_approach)); reflexivity.
Qed.
Lemma tr3_off s a p w : mm_piksi_off (wm (transition3 s a p w)) = mm_piksi_off (wm w).
Proof. unfold transition3. cbn [upd_bus with_h wm]. rewrite tr2_off. reflexivity. Qed.
Lemma dispatch_off i s w w' : s <> m_startup -> dispatch i s w = Some w' -> mm_piksi_off (wm w') = mm_piksi_off (wm w).
Proof.
  intros N HX. unfold dispatch in HX. apply Z.eqb_neq in N. rewrite N in HX.
  unfold dispatch_detumble, dispatch_standby, dispatch_far, dispatch_close_approach, dispatch_docking, dispatch_safehold in HX.
  repeat match type of HX with context [if ?b then _ else _] => destruct b end; injection HX as <-;
    repeat (first [rewrite tr2_off | rewrite tr3_off | progress cbn [upd_m with_m wm m_set_desig m_set_have_entry m_set_enter_docking
       m_set_adcs_dcdc m_set_reset mm_piksi_off]]); reflexivity.
Qed.
Lemma execute_off i w w' : wmission w <> m_startup -> mission_execute i w = Some w' -> mm_piksi_off (wm w') = mm_piksi_off (wm w).
Proof.
  intros N HX. unfold mission_execute in HX. destruct (main_execute main_machines (wh w)) as [h r].
  assert (D : dispatch i (wmission w) (with_h w h) = Some w' -> mm_piksi_off (wm w') = mm_piksi_off (wm w))
    by (intros X; apply (dispatch_off _ _ _ _ N X)).
  destruct (negb _); [|apply D, HX]. destruct r; [apply D, HX| |].
  - injection HX as <-. cbn [upd_m with_m wm m_set_desig mm_piksi_off]. rewrite tr3_off. reflexivity.
  - destruct (_ && _); [|apply D, HX]. injection HX as <-. cbn [upd_m with_m wm m_set_desig mm_piksi_off]. rewrite tr2_off. reflexivity.
Qed.
Lemma no_startup i w w' : wmission w <> m_startup -> mission_execute i w = Some w' -> wmission w' <> m_startup.
Proof.
  intros N HX. apply mission_edge in HX. remember (wmission w) as s. remember (wmission w') as t.
  destruct HX; try exact N; unfold m_startup, m_detumble, m_initialization_hold, m_standby, m_follower, m_leader, m_follower_close_approach,
    m_leader_close_approach, m_docking, m_docked, m_safehold, m_manual in *; lia.
Qed.
Lemma gps_stays_off w w' : gps_history w w' -> wmission w <> m_startup -> wmission w' <> m_startup /\ mm_piksi_off (wm w') = mm_piksi_off (wm w).
Proof.
  induction 1 as [w|w w1 w2 i w3 HH IH HE HP HX]; intros N; [auto|]. destruct (IH N) as [A B]. destruct HE as (_ & EM & _). specialize (EM eq_refl).
  assert (N2 : wmission w2 <> m_startup) by congruence. split; [apply (no_startup i w2 w3 N2 HX)|].
  rewrite (execute_off i w2 w3 N2 HX). congruence.
Qed.
Lemma startup_frees i w w' : wmission w = m_startup -> deployment_wait_batch_thresh <= mm_elapsed (wm w) ->
  mission_execute i w = Some w' -> mm_piksi_off (wm w') = false /\ mm_piksi_pc (wm w') = true.
Proof.
  intros ES EL HX. unfold mission_execute in HX. destruct (main_execute main_machines (wh w)) as [h r]. rewrite ES in HX.
  change (negb ((m_startup =? m_startup) || (m_startup =? m_manual))) with false in HX. cbv iota in HX.
  unfold dispatch in HX. rewrite Z.eqb_refl in HX. unfold dispatch_startup in HX. cbn [with_h wm] in HX.
  destruct (mm_kill (wm w) =? kill_switch_value); [discriminate|].
  assert (L : (mm_elapsed (wm w) <? deployment_wait_batch_thresh) = false) by lia. rewrite L in HX.
  match type of HX with context [any_faulted ?a ?b] => destruct (any_faulted a b) as [h2 f] end.
  destruct f; injection HX as <-; match goal with |- context [if ?b then _ else _] => destruct b end; split; reflexivity.
Qed.

(** * A half turn ends *)
Fixpoint ticks (n : nat) (d : dock) : dock := match n with O => d | S k => dock_tick (ticks k d) end.
Definition left_ (d : dock) : Z := if dk_steps d =? 0 then 0 else 2 * dk_steps d - (if dk_high d then 0 else 1).
Lemma tick_left d : dk_timer d = true -> 0 <= dk_steps d ->
  dk_timer (dock_tick d) = true /\ 0 <= dk_steps (dock_tick d) /\ left_ (dock_tick d) = Z.max 0 (left_ d - 1) /\
  dk_turning (dock_tick d) = dk_turning d /\ dk_config (dock_tick d) = dk_config d.
Proof.
  intros T S0. unfold dock_tick, left_. rewrite T. destruct (Z.leb_spec 1 (dk_steps d)) as [L|L].
  - destruct (dk_high d) eqn:H; cbn.
    + repeat split; auto. destruct (Z.eqb_spec (dk_steps d) 0); lia.
    + repeat split; auto; try lia. destruct (Z.eqb_spec (dk_steps d) 0), (Z.eqb_spec (dk_steps d - 1) 0); lia.
  - assert (E : dk_steps d = 0) by lia. rewrite E. cbn. repeat split; auto. lia.
Qed.
Lemma ticks_left n d : dk_timer d = true -> 0 <= dk_steps d ->
  dk_timer (ticks n d) = true /\ 0 <= dk_steps (ticks n d) /\ left_ (ticks n d) = Z.max 0 (left_ d - Z.of_nat n) /\
  dk_turning (ticks n d) = dk_turning d /\ dk_config (ticks n d) = dk_config d.
Proof.
  intros T S0. induction n as [|n (A & B & C & D & E)]; cbn [ticks].
  - repeat split; auto. unfold left_. destruct (Z.eqb_spec (dk_steps d) 0), (dk_high d); lia.
  - destruct (tick_left (ticks n d) A B) as (F & G & H & I & J). rewrite H, C, I, J. repeat split; auto. lia.
Qed.
Lemma halfturn_ends n cmd angle d d' : dk_timer d = true -> dk_turning d = true -> 0 <= dk_steps d -> cmd <> dk_config d ->
  2 * dk_steps d <= Z.of_nat n -> dock_exec cmd angle (ticks n d) = Some d' -> dk_config d' = cmd /\ at_rest d' /\ dk_turning d' = false.
Proof.
  intros T U S0 HC L HX. destruct (ticks_left n d T S0) as (A & B & C & D & E).
  assert (Z0 : left_ (ticks n d) = 0). { rewrite C. unfold left_. destruct (Z.eqb_spec (dk_steps d) 0), (dk_high d); lia. }
  assert (S1 : dk_steps (ticks n d) = 0). { unfold left_ in Z0. destruct (Z.eqb_spec (dk_steps (ticks n d)) 0); [assumption|]. destruct (dk_high (ticks n d)); lia. }
  unfold dock_exec in HX. rewrite E, D, U in HX. assert (EB : Bool.eqb cmd (dk_config d) = false) by (apply Bool.eqb_false_iff; exact HC).
  rewrite EB in HX. cbn [negb] in HX. rewrite S1 in HX. cbn in HX. injection HX as <-. cbn. rewrite E.
  split; [destruct cmd, (dk_config d); cbn; congruence|]. repeat split.
Qed.

(** the first cycle of a boot *)
Lemma boot_takes_over : forall e g g' t, working e -> gom_exec 1 e g = Some (g', t) ->
  c_heat g' = p_heat g /\ p_heat g' = p_heat g /\ (forall i, (i < 3)%nat -> c_pv g' i = p_vb g i) /\ (forall i, c_cyc g' i = false).
Proof.
  intros e g g' t (W1 & W2 & W3 & W4 & W5 & W6) HX. unfold gom_exec in HX. change (1 =? 1) with true in HX. cbv iota in HX.
  unfold get_hk in HX. rewrite W1 in HX. unfold first_cycle, get_heater in HX. rewrite W5 in HX. cbn [p_heat c_period] in HX.
  destruct (c_period g =? 0); [discriminate|].
  match type of HX with context [if 1 mod c_period g =? 0 then cycle_outputs e ?x else _] => remember x as g0 eqn:E0 end.
  assert (F : exists t1, (if 1 mod c_period g =? 0 then cycle_outputs e g0 else (g0, [])) = (g0, t1)).
  { destruct (1 mod c_period g =? 0); [|eexists; reflexivity]. unfold cycle_outputs.
    assert (C : forall i, c_cyc g0 i = false) by (subst g0; reflexivity). clear E0 HX.
    generalize (@nil (nat * bool)) as tr. generalize ((if c_off g0 then [] else [0%nat]) ++ [1; 2; 3; 4; 5]%nat) as l.
    induction l as [|j l IH]; intros tr; [eexists; reflexivity|]. cbn [fold_left]. unfold cycle_one at 2. rewrite C. apply IH. }
  destruct F as [t1 F]. rewrite F in HX. clear F.
  assert (R : let g2 := heater_step e (ppt_step e (pv_step e g0)) in c_heat g2 = p_heat g /\ p_heat g2 = p_heat g /\ c_pv g2 = c_pv g0 /\ c_cyc g2 = c_cyc g0).
  { cbv zeta. unfold pv_step. match goal with |- context [if ?b then mk_g _ _ _ _ _ _ _ _ _ _ _ _ _ _ _ _ else g0] => destruct b end;
      unfold ppt_step; cbn; match goal with |- context [if ?b then mk_g _ _ _ _ _ _ _ _ _ _ _ _ _ _ _ _ else _] => destruct b end;
      unfold heater_step, get_heater; subst g0; cbn; rewrite W5, W6; destruct (p_heat g) eqn:H; cbn; auto. }
  cbv zeta in R. destruct R as (R1 & R2 & R3 & R4). remember (heater_step e (ppt_step e (pv_step e g0))) as g2 eqn:E2. clear E2.
  assert (G : c_heat g' = c_heat g2 /\ p_heat g' = p_heat g2 /\ c_pv g' = c_pv g2 /\ c_cyc g' = c_cyc g2)
    by (destruct (c_off (publish g2)); injection HX as <- _; cbn; auto).
  destruct G as (G1 & G2 & G3 & G4). rewrite G1, G2, G3, G4, R1, R2, R3, R4. subst g0. cbn [c_pv c_cyc p_vb].
  repeat split. intros i Hi. apply Nat.ltb_lt in Hi. rewrite Hi. reflexivity.
Qed.
