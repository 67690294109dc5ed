(** Concrete runs of the attitude computer, and what can be said for ever after them. *)
From Verif Require Import Base AdcsModel AdcsSpec AdcsConvProofs AdcsRecvProofs AdcsActProofs AdcsRunProofs AdcsServeProofs AdcsTableProofs AdcsMonProofs AdcsExecProofs.
From Coq Require Import QArith Qabs Lqa.
Local Open Scope Z_scope.

(** ** Runs under more traffic *)

Lemma calls_addr (P : dcall -> Prop) v l : (forall c ms m, P c -> dmsgs c = Some ms -> In m ms -> ~ In (addr m) l) -> calls_only P v -> avoids l v.
Proof. intros H. destruct v as [z m|i|e]; cbn; auto. intros [c [ms [A [B C]]]]. eapply H; eassumption. Qed.

(** the addresses a driver call writes to *)
Lemma call_messages c ms m : dmsgs c = Some ms -> In m ms ->
  match c with
  | SetMode x => m = [1; x] | SetPtr x => m = [2; x]
  | SetRwa x _ => m = [3; x] \/ addr m = 4
  | SetSFlt _ => addr m = 6 | SetRFlt _ => addr m = 7
  | SetMtrMode x => m = [10; x] | SetMtrCmd _ => addr m = 11 | SetMtrLim _ => addr m = 12
  | SetSsaMode x => m = [14; x] | SetSsaFlt _ => addr m = 16
  | SetM1 x => m = [19; x] | SetM2 x => m = [20; x] | SetMFlt _ => addr m = 22 | SetGFlt _ => addr m = 23 | SetTFlt _ => addr m = 24
  | SetPwm x => m = [25; x] | SetDes _ => addr m = 26 | SetReset _ => addr m = 28 | SetDisable _ => addr m = 29
  end.
Proof.
  destruct c; cbn [dmsgs]; unfold enc8, option_map; intros E I;
    repeat match type of E with context [match ?x with _ => _ end] => destruct x; try discriminate E end;
    injection E as <-; cbn [In] in I; repeat (destruct I as [I|I]; [subst m; cbn; auto|]); contradiction.
Qed.

Lemma idle_traffic v : calls_only wheels_idle_call v -> avoids [3; 28; 29] v \/ exists z, v = Rx z [3; 0].
Proof.
  destruct v as [z m|i|e]; cbn [calls_only avoids]; auto. intros [c [ms [A [B C]]]]. pose proof (call_messages c ms m B C) as D.
  destruct c; cbn [wheels_idle_call] in A; try contradiction; subst; cbn [addr In];
    first [left; lia | left; rewrite D; lia | destruct D as [-> | D]; [right; eauto|left; lia]].
Qed.

Lemma wheels_same_idle ld wc wcc sp rp sr rr b v b' : calls_only wheels_idle_call v -> wheels_same wc wcc sp rp sr rr b -> bexec ld b v = Some b' ->
  wheels_same wc wcc sp rp sr rr b'.
Proof.
  intros T W E. destruct (idle_traffic v T) as [A|[z ->]]; [eapply wheels_same_inv; eassumption|].
  destruct W as [[A [B [C [D1 [D2 D3]]]]] [W1 [W2 [W3 [W4 [W5 W6]]]]]]. cbn [bexec] in E. change (recv z [3; 0] (rg b)) with (rx_rwa_mode z [0] (rg b)) in E. assert (b' = b_rg b (rx_rwa_mode z [0] (rg b)) (pc b)) by congruence. subst b'.
  unfold wheels_same, no_cmd. unfold rx_rwa_mode, rx_rwa_cmd. cbn [length Nat.ltb Nat.leb]. bcbn. repeat split; assumption.
Qed.

Lemma passive_traffic v : calls_only passive_call v -> avoids [1; 28; 29] v \/ exists z, v = Rx z [1; 0].
Proof.
  destruct v as [z m|i|e]; cbn [calls_only avoids]; auto. intros [c [ms [A [B C]]]]. pose proof (call_messages c ms m B C) as D.
  destruct c; cbn [passive_call] in A; try contradiction; subst; cbn [addr In];
    first [right; eexists; reflexivity | left; lia | left; rewrite D; lia | left; destruct D as [-> | D]; [cbn; lia|lia]].
Qed.

Lemma frozen_passive ld ro wc wcc b v b' : calls_only passive_call v -> frozen ro wc wcc b -> bexec ld b v = Some b' -> frozen ro wc wcc b'.
Proof.
  intros T W E. destruct (passive_traffic v T) as [A|[z ->]]; [eapply frozen_inv; eassumption|].
  destruct W as [A [B [C [D [E1 [E2 E3]]]]]]. cbn [bexec] in E. change (recv z [1; 0] (rg b)) with (rx_mode [0] (rg b)) in E. assert (b' = b_rg b (rx_mode [0] (rg b)) (pc b)) by congruence. subst b'.
  unfold frozen. unfold rx_mode, rx_ptr. bcbn. repeat split; try assumption. discriminate.
Qed.

(** ** Concrete runs *)

Definition se0 : senv :=
  mk_se (Some (0, (100, 200, 300))) (Some (1, 2, 3)) (Some (1, 2, 3)) (fun _ => Some 1000) (fun _ => Some 500) (fun _ => Some 900) (V 0 0 1) (fun _ => true) true.
Definition idle (n : nat) : list bev := repeat (Step se0) n.
Definition all_up : nat -> bool := fun _ => true.

(** one pass, then active with a wheel torque and a rod moment, then until both are executed and the loop is back at its start *)
Definition torque1 : vec := V (1 # 1000) (- (1 # 1000)) (2 # 1000).
Definition moment1 : vec := V (1 # 100) (2 # 100) (- (3 # 100)).
Definition run_up : list bev :=
  idle 13 ++ sent (SetMode 1) ++ sent (SetRwa 2 torque1) ++ sent (SetMtrMode 1) ++ sent (SetMtrCmd moment1) ++ sent (SetMtrLim max_moment) ++ sent (SetSsaMode 1) ++
  sent (SetPwm 100) ++ sent (SetDes 85) ++ idle 31.
Definition up : box := match brun true (box0 all_up) run_up with Some b => b | None => box0 all_up end.

Lemma up_run : brun true (box0 all_up) run_up = Some up.
Proof. unfold up. destruct (brun true (box0 all_up) run_up) eqn:E; [reflexivity|]. vm_compute in E. discriminate E. Qed.

Lemma up_facts : pc up = PImu /\ r_mode (rg up) = 1 /\ w_flg (r_rwa (rg up)) = false /\ m_flg (r_mtr (rg up)) = false /\
  (wcw (dv up) 0%nat, wccw (dv up) 0%nat) = (false, true) /\ (wcw (dv up) 1%nat, wccw (dv up) 1%nat) = (true, false) /\
  (wcw (dv up) 2%nat, wccw (dv up) 2%nat) = (false, true) /\ rod (dv up) 0%nat = 17347 /\ rod (dv up) 1%nat = -5781 /\
  h_rflg (r_hav (rg up)) = false /\ h_dflg (r_hav (rg up)) = false /\ heat (dv up) = 12800 /\ fn (dv up) 0%nat = true /\ fn (dv up) 18%nat = true /\
  w_mode (r_rwa (rg up)) = 2 /\ s_mode (r_ssa (rg up)) = 2.
Proof. vm_compute. repeat split. Qed.

Lemma up_reachable : reachable true up.
Proof. exists all_up, run_up. exact up_run. Qed.

(** ** Wheels disabled by command keep turning *)

(** state after the disable command arrives *)
Definition up_off : box := match brun true up (sent (SetRwa 0 v0)) with Some b => b | None => up end.
Lemma up_off_run : brun true up (sent (SetRwa 0 v0)) = Some up_off.
Proof. unfold up_off. unfold sent. cbn [dmsgs option_map]. change (0 =? 1) with false. change (0 =? 2) with false. cbv iota. reflexivity. Qed.

Lemma up_off_same : wheels_same (wcw (dv up)) (wccw (dv up)) (w_spd (r_rwa (rg up))) (w_rmp (r_rwa (rg up))) (spd_rd (dv up)) (rmp_rd (dv up)) up_off.
Proof. unfold wheels_same, no_cmd. vm_compute. repeat split. Qed.

Theorem wheels_never_stop : exists b, reachable true b /\ r_mode (rg b) = 1 /\
  forall l b', Forall (calls_only wheels_idle_call) l -> brun true b (sent (SetRwa 0 v0) ++ l) = Some b' ->
    forall i, (i < 3)%nat -> ~ stopped (dv b') i.
Proof.
  exists up. destruct up_facts as [A [B [_ [_ [C0 [C1 [C2 _]]]]]]]. split; [exact up_reachable|]. split; [exact B|].
  intros l b' T R. destruct (brun_app_inv _ _ _ _ _ R) as [bm [R1 R2]]. rewrite up_off_run in R1. assert (bm = up_off) by congruence. subst bm.
  pose proof (brun_inv true _ _ (wheels_same_idle true _ _ _ _ _ _) l up_off b' T up_off_same R2) as [_ [W1 [W2 _]]].
  unfold stopped. rewrite W1, W2. intros i Hi [S1 S2].
  destruct i as [|[|[|i]]]; [congruence|congruence|congruence|lia].
Qed.

Theorem readings_never_change : exists b, reachable true b /\ r_mode (rg b) = 1 /\
  forall l b', Forall (calls_only wheels_idle_call) l -> brun true b (sent (SetRwa 0 v0) ++ l) = Some b' ->
    w_spd (r_rwa (rg b')) = w_spd (r_rwa (rg b)) /\ w_rmp (r_rwa (rg b')) = w_rmp (r_rwa (rg b)).
Proof.
  exists up. destruct up_facts as [A [B _]]. split; [exact up_reachable|]. split; [exact B|].
  intros l b' T R. destruct (brun_app_inv _ _ _ _ _ R) as [bm [R1 R2]]. rewrite up_off_run in R1. assert (bm = up_off) by congruence. subst bm.
  pose proof (brun_inv true _ _ (wheels_same_idle true _ _ _ _ _ _) l up_off b' T up_off_same R2) as [_ [_ [_ [W1 [W2 _]]]]].
  split; assumption.
Qed.

(** ** Passive mode leaves the actuators on *)

Theorem passive_stays_on : exists b, reachable true b /\
  forall l b', Forall (calls_only passive_call) l -> brun true b (sent (SetMode 0) ++ l) = Some b' ->
    rod (dv b') 0%nat = 17347 /\ rod (dv b') 1%nat = -5781 /\ ~ stopped (dv b') 0%nat.
Proof.
  exists up. destruct up_facts as [A [B [_ [_ [C0 [_ [_ [D0 [D1 _]]]]]]]]]. split; [exact up_reachable|].
  intros l b' T R. destruct (brun_app_inv _ _ _ _ _ R) as [bm [R1 R2]].
  assert (W : frozen (rod (dv up)) (wcw (dv up)) (wccw (dv up)) bm).
  { change (sent (SetMode 0)) with [Rx 0 [1; 0]] in R1. cbn [brun bexec obind] in R1. assert (bm = b_rg up (recv 0 [1; 0] (rg up)) (pc up)) by congruence. subst bm. unfold frozen. vm_compute. repeat split; discriminate. }
  pose proof (brun_inv true _ _ (frozen_passive true _ _ _) l bm b' T W R2) as [_ [_ [_ [_ [W1 [W2 W3]]]]]].
  unfold stopped. rewrite W1, W2, W3, D0, D1. split; [reflexivity|]. split; [reflexivity|]. intros [_ S2]. congruence.
Qed.

(** ** The heater without readings *)

Theorem heater_stays_on : exists b, reachable true b /\ heat (dv b) = 12800 /\
  forall l b', Forall no_gyr l -> brun true b l = Some b' -> heat (dv b') = 12800.
Proof.
  exists up. destruct up_facts as [A [_ [_ [_ [_ [_ [_ [_ [_ [F1 [F2 [H [G1 [G2 _]]]]]]]]]]]]]]. split; [exact up_reachable|]. split; [exact H|].
  intros l b' T R.
  assert (W : heating 12800 up) by (unfold heating; rewrite A; repeat split; assumption).
  pose proof (brun_inv true _ _ (heating_inv true _) l up b' T W R) as [_ [_ [W1 _]]]. exact W1.
Qed.

(** ** A pending speed command read as a torque *)

Definition spin : vec := V 100 0 0.
Definition run_bad : list bev := idle 13 ++ sent (SetMode 1) ++ sent (SetRwa 1 spin) ++ firstn 1 (sent (SetRwa 2 v0)) ++ idle 31.
Theorem speed_as_torque : brun true (box0 all_up) run_bad = None.
Proof. vm_compute. reflexivity. Qed.

(** ** A calibration request that arrives at the wrong moment *)

Definition no_more_calibration (c : nat) (b : box) : Prop := cal2 (dv b) = c /\ (i_m2 (r_imu (rg b)) = 0 \/ pc b = PImuM2).

Lemma recv_m2 z m r : addr m <> 19 -> addr m <> 20 -> i_m2 (r_imu (recv z m r)) = i_m2 (r_imu r).
Proof. intros H1 H2. recv_solve m; try reflexivity. Qed.

Lemma fold_cal {A} (op : hw -> A -> hw) l h : (forall h i, cal2 (op h i) = cal2 h) -> cal2 (fold_left op l h) = cal2 h.
Proof. intros H. revert h. induction l as [|x l IH]; intros h; [reflexivity|]. cbn [fold_left]. rewrite IH, H. reflexivity. Qed.

Lemma mtr_cal ld m c lim h : cal2 (mtr_actuate ld m c lim h) = cal2 h.
Proof. unfold mtr_actuate. cbv zeta. destruct (negb (m =? 1)); apply fold_cal; intros g i; destruct (fn g (3 + i)); reflexivity. Qed.

Lemma wheels_cal h : cal2 (wheels_actuate h) = cal2 h.
Proof.
  unfold wheels_actuate. apply fold_cal. intros g i. destruct (fn g (7 + i)); [|reflexivity]. unfold wheel_actuate. cbv zeta.
  match goal with |- context [if ?c then _ else _] => destruct c end; reflexivity.
Qed.

Lemma rwa_cal e m c h h' : rwa_actuate e m c h = Some h' -> cal2 h' = cal2 h.
Proof.
  unfold rwa_actuate. cbv zeta.
  assert (P : forall h, cal2 (pot_write e h) = cal2 h) by (intros g; unfold pot_write; destruct (e_pot e); reflexivity).
  destruct (m =? 2).
  - destruct (negb (fn h 6)); [intros X; injection X as <-; reflexivity|].
    match goal with |- context [fold_left ?f _ (Some h)] =>
      assert (G : forall l o g, o = Some g -> forall g', fold_left f l o = Some g' -> cal2 g' = cal2 g) end.
    { induction l as [|x l IH]; intros o g -> g' X; cbn [fold_left obind] in X; [injection X as <-; reflexivity|].
      destruct (Qlt_le_dec (vnth (body_to_rwa c) x) 0).
      - destruct (uc (- vnth (body_to_rwa c) x) 0 max_torque); cbn [option_map] in X; [|exfalso; eapply torque_set_wset; exact X]. rewrite (IH _ _ eq_refl _ X). reflexivity.
      - destruct (uc (vnth (body_to_rwa c) x) 0 max_torque); cbn [option_map] in X; [|exfalso; eapply torque_set_wset; exact X]. rewrite (IH _ _ eq_refl _ X). reflexivity. }
    match goal with |- option_map _ ?x = _ -> _ => destruct x eqn:E; [|discriminate] end. intros X. cbn [option_map] in X. injection X as <-.
    rewrite P, wheels_cal. eapply G; [reflexivity|exact E].
  - destruct (m =? 1).
    + intros X. apply (f_equal (fun o => match o with Some x => cal2 x | None => 0%nat end)) in X. cbv beta iota in X. rewrite <- X. match goal with |- cal2 (if ?c then _ else _) = _ => destruct c end; rewrite ?P, wheels_cal; apply fold_cal; intros g i; destruct (fn g (7 + i)); reflexivity.
    + intros X. apply (f_equal (fun o => match o with Some x => cal2 x | None => 0%nat end)) in X. cbv beta iota in X. rewrite <- X. apply fold_cal. intros g i. destruct (fn g (7 + i)); reflexivity.
Qed.

Lemma table_cal e t h : cal2 (exec_reset e t h) = cal2 h /\ cal2 (exec_disable e t h) = cal2 h.
Proof.
  unfold exec_reset, exec_disable. split; apply fold_cal; intros g i; (destruct (Z.testbit t (Z.of_nat i)); [|reflexivity]).
  - unfold dev_reset. destruct (is_rod i), (is_wheel i), (Nat.eqb i 18), (Nat.eqb i 6); try reflexivity. cbv zeta. destruct (e_reset e i); reflexivity.
  - unfold dev_disable, pot_write. destruct (is_rod i), (is_wheel i), (Nat.eqb i 18), (Nat.eqb i 6); try reflexivity. destruct (e_pot e); reflexivity.
Qed.

Lemma imu_cal e i h : i_m2 i <> 1 -> cal2 (imu_update e i h) = cal2 h.
Proof.
  intros M. unfold imu_update.
  destruct (gyr_keeps e (i_gflt i) (i_des i) (i_tflt i) (i_pwm i) h) as [_ [_ [_ [_ [_ [_ [_ [_ [_ C]]]]]]]]].
  remember (gyr_update e (i_gflt i) (i_des i) (i_tflt i) (i_pwm i) h) as h1. clear Heqh1. rewrite <- C.
  assert (A : cal2 (mag1_update e (i_mflt i) h1) = cal2 h1).
  { unfold mag1_update. destruct (negb (fn h1 1)); [auto|]. destruct (e_b1 e); auto. }
  rewrite <- A. apply Z.eqb_neq in M. unfold mag2_update. rewrite M. destruct (negb (fn (mag1_update e (i_mflt i) h1) 2)); [reflexivity|]. destruct (e_b2 e); reflexivity.
Qed.

Lemma no_more_inv ld c b v b' : avoids [19; 20] v -> no_more_calibration c b -> bexec ld b v = Some b' -> no_more_calibration c b'.
Proof.
  intros T [A B] E. destruct v as [z m|i|e].
  - rx_subst E b'. cbn [avoids] in T. assert (T1 : addr m <> 19) by av T. assert (T2 : addr m <> 20) by av T.
    unfold no_more_calibration. bcbn. rewrite (recv_m2 z m (rg b) T1 T2). split; assumption.
  - pose proof (fail_rod_wheel _ _ _ _ E) as [E1 [E2 _]]. unfold no_more_calibration. rewrite E1, E2. split; [|exact B].
    cbn [bexec] in E. destruct (bus_dev i); injection E as <-; exact A.
  - cbn [bexec] in E. unfold no_more_calibration in *. step_cases b E; try (destruct B as [B|B]; [|discriminate B]).
    all: try (split; [exact A|left; exact B]).
    all: try (split; [exact A|left; reflexivity]).
    + split; [rewrite imu_cal; [exact A|rewrite B; discriminate]|left; exact B].
    + split; [rewrite mtr_cal; exact A|left; exact B].
    + split; [|left; exact B]. match goal with H : rwa_actuate _ _ _ _ = Some _ |- _ => rewrite (rwa_cal _ _ _ _ _ H); exact A end.
    + destruct (table_cal e lt h) as [K _]. rewrite K. split; [exact A|left; exact B].
    + destruct (table_cal e lt h) as [_ K]. rewrite K. split; [exact A|left; exact B].
Qed.

(** three steps into a pass *)
Definition mid : box := match brun true (box0 all_up) (idle 16) with Some b => b | None => box0 all_up end.
Lemma mid_run : brun true (box0 all_up) (idle 16) = Some mid.
Proof. unfold mid. destruct (brun true (box0 all_up) (idle 16)) eqn:E; [reflexivity|]. vm_compute in E. discriminate E. Qed.
Lemma mid_facts : fn (dv mid) 2%nat = true /\ pc mid = PImuM2.
Proof. vm_compute. split; reflexivity. Qed.

Lemma calibration_lost_at ld b l b' : pc b = PImuM2 -> Forall (avoids [19; 20]) l -> brun ld b (sent (SetM2 1) ++ l) = Some b' -> cal2 (dv b') = cal2 (dv b).
Proof.
  intros P T R. destruct (brun_app_inv _ _ _ _ _ R) as [bm [R1 R2]].
  assert (W : no_more_calibration (cal2 (dv b)) bm).
  { change (sent (SetM2 1)) with [Rx 0 [20; 1]] in R1. cbn [brun bexec obind] in R1. assert (bm = b_rg b (recv 0 [20; 1] (rg b)) (pc b)) by congruence. subst bm.
    unfold no_more_calibration. cbn [dv b_rg rg pc]. split; [reflexivity|]. right. exact P. }
  pose proof (brun_inv ld _ _ (no_more_inv ld _) l bm b' T W R2) as [W1 _]. exact W1.
Qed.

Theorem calibration_lost : exists b, reachable true b /\ fn (dv b) 2%nat = true /\
  forall l b', Forall (avoids [19; 20]) l -> brun true b (sent (SetM2 1) ++ l) = Some b' -> cal2 (dv b') = cal2 (dv b).
Proof.
  exists mid. destruct mid_facts as [F P]. split; [exists all_up, (idle 16); exact mid_run|]. split; [exact F|].
  intros l b' T R. eapply calibration_lost_at; eassumption.
Qed.

Definition cal_wait (b : box) : Prop := i_m2 (r_imu (rg b)) = 1 /\ (1 <=? ord (pc b))%nat && (ord (pc b) <=? 3)%nat = false.
Definition cal_mu (b : box) : nat := match ord (pc b) with O => 1 | n => 38 - n end.

Theorem calibration_served ld b l b' : i_m2 (r_imu (rg b)) = 1 -> pc b <> PImuPub -> pc b <> PImuM1 -> pc b <> PImuM2 ->
  Forall (avoids [19; 20]) l -> (34 <= n_steps l)%nat -> brun ld b l = Some b' ->
  exists l1 e l2 b1 b2, l = l1 ++ Step e :: l2 /\ brun ld b l1 = Some b1 /\ bstep ld e b1 = Some b2 /\
    (fn (dv b1) 2%nat = true -> cal2 (dv b2) = S (cal2 (dv b1))).
Proof.
  intros A P1 P2 P3 T N R.
  destruct (serve ld cal_wait cal_mu (fun b _ => pc b = PImu /\ i_m2 (r_imu (rg b)) = 1) (avoids [19; 20])) with (l := l) (b := b) (b' := b') as [la [e [lb [b1 [X [Y [D1 D2]]]]]]]; try assumption.
  { intros g v g' NS TT [I1 I2] E. destruct v as [z m|i|e]; [| |exfalso; apply (NS e); reflexivity].
    - rx_subst E g'. cbn [avoids] in TT. assert (T1 : addr m <> 19) by av TT. assert (T2 : addr m <> 20) by av TT.
      unfold cal_wait, cal_mu. bcbn. rewrite (recv_m2 z m (rg g) T1 T2). split; [split; assumption|lia].
    - apply fail_rod_wheel in E. destruct E as [E1 [E2 _]]. unfold cal_wait, cal_mu. rewrite E1, E2. split; [split; assumption|lia]. }
  { intros g e g' [I1 I2] E. unfold cal_wait, cal_mu in *. step_cases g E; try discriminate I2; try (left; split; [reflexivity|exact I1]).
    all: right; cbn [ord] in *; repeat match goal with |- context [if ?c then _ else _] => destruct c end; cbn [ord Nat.leb andb];
      (split; [split; [exact I1|reflexivity]|lia]). }
  { intros g _. unfold cal_mu. destruct (pc g); cbn; lia. }
  { split; [exact A|]. destruct (pc b); try reflexivity; congruence. }
  { unfold cal_mu. destruct (pc b); cbn; try lia; congruence. }
  rewrite X in R. destruct (brun_app_inv _ _ _ _ _ R) as [b1' [Y' R3]]. assert (b1' = b1) by congruence. subst b1'.
  cbn [brun bexec] in R3. destruct (bstep ld e b1) as [b2|] eqn:S; [|discriminate R3].
  exists la, e, lb, b1, b2. split; [exact X|]. split; [exact Y|]. split; [exact S|]. intros F.
  unfold bstep in S. rewrite D1 in S. injection S as <-. cbn [dv b_dv]. apply calibration_done; assumption.
Qed.

(** ** No undefined conversion while no speed command is sent *)

Definition safe_cmd (b : box) : Prop :=
  w_mode (r_rwa (rg b)) <> 1 /\ in_range3 (- max_torque) max_torque (w_cmd (r_rwa (rg b))) /\
  match pc b with
  | PRwaRd1 => in_range (- max_torque) max_torque (vx (l_cmd b))
  | PRwaRd2 => in_range (- max_torque) max_torque (vx (l_cmd b)) /\ in_range (- max_torque) max_torque (vy (l_cmd b))
  | PRwaChk => in_range3 (- max_torque) max_torque (l_cmd b)
  | _ => True
  end.
(** no wheel mode other than disabled or torque is commanded *)
Definition no_speed (v : bev) : Prop := match v with Rx z m => 0 <= z < 256 /\ bytes m /\ (addr m = 3 -> nth 1 m 0 <> 1) | _ => True end.

Lemma uc_torque x : in_range (- max_torque) max_torque x ->
  exists t, (if Qlt_le_dec x 0 then uc (- x) 0 max_torque else uc x 0 max_torque) = Some t.
Proof.
  intros [L H]. destruct (Qlt_le_dec x 0) as [N|N].
  - destruct (uc_some (- x) 0 max_torque) as [t [E _]]; [reflexivity|lra|]. eauto.
  - destruct (uc_some x 0 max_torque) as [t [E _]]; [reflexivity|lra|]. eauto.
Qed.

Lemma rwa_defined e m c h : in_range3 (- max_torque) max_torque c -> rwa_actuate e m c h <> None.
Proof.
  intros [A [B C]]. unfold rwa_actuate. cbv zeta. destruct (m =? 2); [|destruct (m =? 1); discriminate].
  destruct (negb (fn h 6)); [discriminate|]. unfold body_to_rwa. cbn [fold_left obind vnth vx vy vz].
  assert (B' : in_range (- max_torque) max_torque (- vy c)) by (destruct B; split; lra).
  assert (C' : in_range (- max_torque) max_torque (- vz c)) by (destruct C; split; lra).
  destruct (uc_torque _ B') as [t1 E1]. destruct (uc_torque _ C') as [t2 E2]. destruct (uc_torque _ A) as [t3 E3].
  destruct (Qlt_le_dec (- vy c) 0); rewrite E1; cbn [option_map obind];
    destruct (Qlt_le_dec (- vz c) 0); rewrite E2; cbn [option_map obind];
    destruct (Qlt_le_dec (vx c) 0); rewrite E3; discriminate.
Qed.

Lemma rd_byte z l : 0 <= z < 256 -> bytes l -> 0 <= fst (rd z l) < 256 /\ bytes (snd (rd z l)).
Proof. intros Z B. destruct l as [|a l]; cbn [rd fst snd]; [split; [exact Z|constructor]|]. inversion B; subst. split; assumption. Qed.
Lemma rd16_range z l : 0 <= z < 256 -> bytes l -> 0 <= fst (rd16 z l) <= 65535 /\ bytes (snd (rd16 z l)).
Proof.
  intros Z B. unfold rd16. destruct (rd z l) as [a l1] eqn:E1. destruct (rd_byte z l Z B) as [A1 A2]. rewrite E1 in A1, A2. cbn [fst snd] in A1, A2.
  destruct (rd z l1) as [b l2] eqn:E2. destruct (rd_byte z l1 Z A2) as [B1 B2]. rewrite E2 in B1, B2. cbn [fst snd] in *. split; [lia|exact B2].
Qed.
Lemma rd3_range z l t l' mn mx : (mn < mx)%Q -> 0 <= z < 256 -> bytes l -> rd16x3 z l = (t, l') -> in_range3 mn mx (fp3 t mn mx).
Proof.
  intros H Z B. unfold rd16x3. destruct (rd16 z l) as [a l1] eqn:E1. destruct (rd16_range z l Z B) as [A1 A2]. rewrite E1 in A1, A2. cbn [fst snd] in A1, A2.
  destruct (rd16 z l1) as [b l2] eqn:E2. destruct (rd16_range z l1 Z A2) as [B1 B2]. rewrite E2 in B1, B2. cbn [fst snd] in B1, B2.
  destruct (rd16 z l2) as [c l3] eqn:E3. destruct (rd16_range z l2 Z B2) as [C1 C2]. rewrite E3 in C1, C2. cbn [fst snd] in C1, C2.
  intros X. injection X as <- _. unfold fp3, in_range3, in_range. cbn [vx vy vz]. split; [|split]; apply fp16_range; assumption.
Qed.

Lemma rwa_cmd_safe z l r : 0 <= z < 256 -> bytes l -> w_mode (r_rwa r) <> 1 -> in_range3 (- max_torque) max_torque (w_cmd (r_rwa r)) ->
  w_mode (r_rwa (rx_rwa_cmd z l r)) <> 1 /\ in_range3 (- max_torque) max_torque (w_cmd (r_rwa (rx_rwa_cmd z l r))).
Proof.
  intros Z B M C. unfold rx_rwa_cmd. destruct (length l <? 6)%nat; [split; assumption|]. destruct (rd16x3 z l) as [t l'] eqn:E.
  destruct (w_mode (r_rwa r) =? 2); [|apply Z.eqb_neq in M; rewrite M; apply Z.eqb_neq in M; split; assumption].
  cbn. split; [exact M|]. eapply rd3_range; [reflexivity|exact Z|exact B|exact E].
Qed.

Lemma safe_step ld v b : no_speed v -> safe_cmd b -> exists b', bexec ld b v = Some b' /\ safe_cmd b'.
Proof.
  intros T [A [B C]]. destruct v as [z m|i|e].
  - eexists. split; [reflexivity|]. cbn [no_speed] in T. destruct T as [Z [BB T]]. unfold safe_cmd. bcbn.
    assert (G : w_mode (r_rwa (recv z m (rg b))) <> 1 /\ in_range3 (- max_torque) max_torque (w_cmd (r_rwa (recv z m (rg b))))).
    { destruct m as [|a l]; [split; assumption|]. cbn [addr] in T. inversion BB as [|? ? BA BL]; subst.
      destruct (Z.eq_dec a 3) as [->|N3]; [|destruct (Z.eq_dec a 4) as [->|N4]].
      - change (recv z (3 :: l) (rg b)) with (rx_rwa_mode z l (rg b)). unfold rx_rwa_mode. destruct l as [|x l]; [split; assumption|].
        inversion BL; subst. apply rwa_cmd_safe; [exact Z|assumption|exact (T eq_refl)|exact B].
      - change (recv z (4 :: l) (rg b)) with (rx_rwa_cmd z l (rg b)). apply rwa_cmd_safe; assumption.
      - destruct (recv_rwa z (a :: l) (rg b) N3 N4) as [Q1 [Q2 _]]. rewrite Q1, Q2. split; assumption. }
    destruct G as [G1 G2]. split; [exact G1|]. split; [exact G2|exact C].
  - eexists. split; [reflexivity|]. destruct (fail_rod_wheel i b _ ld eq_refl) as [E1 [E2 [_ [E3 _]]]]. unfold safe_cmd. rewrite E1, E2, E3. split; [exact A|split; [exact B|exact C]].
  - cbn [bexec]. destruct (bstep ld e b) as [b'|] eqn:E.
    + exists b'. split; [reflexivity|]. unfold safe_cmd in *. step_cases b E; bcbn; repeat match goal with |- context [if ?c then _ else _] => destruct c end;
        (split; [exact A|split; [exact B|]]); try exact I; try (destruct B as [B1 [B2 B3]]; cbn [vx vy vz]).
      * exact B1.
      * split; assumption.
      * destruct C as [C1 C2]. split; [exact C1|split; [exact C2|exact B3]].
    + exfalso. unfold bstep in E. destruct (pc b) eqn:P; try discriminate E.
      * destruct (w_flg (r_rwa (rg b))); [discriminate E|].
        destruct (rwa_actuate e (l_mode b) (l_cmd b) (dv b)) eqn:F; [discriminate E|]. eapply rwa_defined; eassumption.
      * destruct (sun_calc e (dv b)). discriminate E.
      * destruct (h_rflg (r_hav (rg b))); discriminate E.
      * destruct (h_dflg (r_hav (rg b))); discriminate E.
Qed.

Theorem no_undefined ld f l : Forall no_speed l -> brun ld (box0 f) l <> None.
Proof.
  intros T. assert (S : safe_cmd (box0 f)).
  { split; [cbn; discriminate|]. split; [|exact I]. cbn. unfold in_range3, in_range. cbn. repeat split; discriminate. }
  revert S. generalize (box0 f). induction T as [|v l Tv Tl IH]; intros b S; [discriminate|]. cbn [brun].
  destruct (safe_step ld v b Tv S) as [b' [E S']]. rewrite E. cbn [obind]. apply IH. exact S'.
Qed.

(** ** The sun vector as the flight computer gets it *)

Theorem sun_readback z r1 r2 ans v : s_mode (r_ssa r1) = 2 -> s_vec (r_ssa r2) = Some v -> in_range3 (-1) 1 v ->
  ans 14 = answers r1 14 -> ans 15 = answers r2 15 ->
  exists w, o_sun (monitor z ans) = Some w /\ within_step3 65535 (-1) 1 v w.
Proof.
  intros M V R A1 A2. destruct (tx3_some _ _ _ (eq_refl : (-1 < 1)%Q) R) as [a [b [c [E [_ [_ [_ W]]]]]]].
  unfold monitor. cbn [o_sun]. rewrite A1, A2.
  assert (F1 : answers r1 14 = Some [2]) by (unfold answers, request; cbn; rewrite M; reflexivity).
  assert (F2 : answers r2 15 = Some (le16 a ++ le16 b ++ le16 c)).
  { unfold answers, request. cbn [r_ptr set_rptr]. change (15 =? 0) with false. change (15 =? 8) with false. change (15 =? 14) with false. change (15 =? 15) with true. cbv iota.
    change (s_vec (r_ssa (set_rptr r2 15))) with (s_vec (r_ssa r2)). rewrite V. cbn [obind]. exact E. }
  rewrite F1, F2. cbn [fill app firstn nth repeat]. change (2 =? 2) with true. cbv iota. eexists. split; [reflexivity|].
  unfold dec3, at16, fill, le16. cbn [app firstn nth Nat.add]. rewrite !le16_join. exact W.
Qed.

Theorem no_sun_unless_complete z ans : (forall l, ans 14 = Some l -> nth 0 l z <> 2) -> z <> 2 -> o_sun (monitor z ans) = None.
Proof.
  intros A Z. unfold monitor. cbn [o_sun].
  assert (F : nth 0 (fill z 1 (ans 14)) 0 <> 2).
  { unfold fill. destruct (ans 14) as [l|] eqn:E; [|exact Z]. specialize (A l eq_refl). destruct l as [|x l]; cbn; [exact Z|exact A]. }
  apply Z.eqb_neq in F. rewrite F. reflexivity.
Qed.
