(** End to end: from a driver call of the flight computer to what the attitude computer does. *)
From Verif Require Import Base AdcsModel AdcsSpec AdcsConvProofs AdcsRecvProofs AdcsActProofs AdcsRunProofs AdcsServeProofs AdcsTableProofs AdcsMonProofs AdcsExecProofs AdcsRefuteProofs.
From Coq Require Import QArith Qabs Lqa.
Local Open Scope Z_scope.

Lemma rx_run ld b z ms l : brun ld b (map (Rx z) ms ++ l) = brun ld (b_rg b (recv_all z ms (rg b)) (pc b)) l.
Proof.
  revert b. induction ms as [|m ms IH]; intros b; [destruct b; reflexivity|]. cbn [map app brun bexec obind]. rewrite IH. reflexivity.
Qed.

Lemma sent_run ld b c ms l : dmsgs c = Some ms -> brun ld b (sent c ++ l) = brun ld (b_rg b (recv_all 0 ms (rg b)) (pc b)) l.
Proof. intros E. unfold sent. rewrite E. apply rx_run. Qed.

(** ** Rods *)

Theorem rods_disabled ld b m v l1 l2 b' :
  r_mode (rg b) = 1 -> m <> 1 -> in_range3 (- max_moment) max_moment v ->
  Forall (avoids [1; 10; 11; 12]) l1 -> (43 <= n_steps l1)%nat -> Forall (avoids [10]) l2 ->
  brun ld b (sent (SetMtrMode m) ++ sent (SetMtrCmd v) ++ l1 ++ l2) = Some b' ->
  forall i, (i < 3)%nat -> fn (dv b') (3 + i) = true -> rod (dv b') i = 0.
Proof.
  intros A M V T1 N T2 R. rewrite (sent_run _ _ (SetMtrMode m) [[10; m]] _ eq_refl) in R.
  destruct (tx3_some _ _ _ max_moment_pos V) as [x [y [w [E [X [Y [W _]]]]]]].
  assert (D : dmsgs (SetMtrCmd v) = Some [11 :: le16 x ++ le16 y ++ le16 w]) by (cbn [dmsgs]; unfold enc3; rewrite E; reflexivity).
  rewrite (sent_run _ _ _ _ _ D) in R. cbn [rg b_rg pc] in R.
  remember (recv_all 0 [[10; m]] (rg b)) as r1 eqn:E1.
  assert (P1 : r_mode r1 = 1) by (subst r1; exact A). assert (P2 : m_mode (r_mtr r1) = m) by (subst r1; reflexivity). clear E1.
  eapply rods_off_served; try exact R; try eassumption; cbn [rg b_rg].
  - rewrite <- P2 in M. intros XX. apply M. rewrite <- XX. symmetry. apply (driver_frame _ _ 0 r1 NMMode D). cbn; intuition discriminate.
  - destruct (rod_command_arrives v 0 r1 V) as [ms [E2 [_ F]]].
    assert (ms = [11 :: le16 x ++ le16 y ++ le16 w]) by congruence. subst ms. exact F.
Qed.

Lemma zero_arrives z r : dmsgs (SetMtrCmd v0) = Some [[11; 255; 127; 255; 127; 255; 127]] /\
  r_mtr (recv_all z [[11; 255; 127; 255; 127; 255; 127]] r) = mk_mt (m_mode (r_mtr r)) zero_code (m_lim (r_mtr r)) true.
Proof. split; [vm_compute; reflexivity|reflexivity]. Qed.

Theorem zero_turns_off ld b l b' :
  r_mode (rg b) = 1 -> m_mode (r_mtr (rg b)) = 1 -> (0 <= m_lim (r_mtr (rg b)))%Q ->
  Forall (avoids [1; 10; 11; 12]) l -> (44 <= n_steps l)%nat -> brun ld b (sent (SetMtrCmd v0) ++ l) = Some b' ->
  exists l1 e l2 b1 b2, l = l1 ++ Step e :: l2 /\ brun ld b (sent (SetMtrCmd v0) ++ l1) = Some b1 /\ bstep ld e b1 = Some b2 /\
    forall i, (i < 3)%nat -> fn (dv b2) (3 + i) = true -> rod (dv b2) i = 0.
Proof.
  intros A M L T N R. destruct (zero_arrives 0 (rg b)) as [D Z0]. rewrite (sent_run _ _ _ _ _ D) in R.
  set (b1 := b_rg b (recv_all 0 [[11; 255; 127; 255; 127; 255; 127]] (rg b)) (pc b)) in *.
  assert (A1 : r_mode (rg b1) = 1).
  { unfold b1. bcbn. unfold recv_all. cbn [fold_left]. rewrite recv_rmode by (cbn; lia). exact A. }
  assert (Z1 : r_mtr (rg b1) = mk_mt 1 zero_code (m_lim (r_mtr (rg b))) true) by (unfold b1; bcbn; rewrite Z0, M; reflexivity).
  destruct (rod_command_executed ld b1 l b') as [la [e [lb [c1 [c2 [X [Y [S F]]]]]]]]; try assumption; [rewrite Z1; reflexivity|].
  exists la, e, lb, c1, c2. split; [exact X|]. split; [rewrite (sent_run _ _ _ _ _ D); exact Y|]. split; [exact S|].
  rewrite Z1 in F. cbn [m_mode m_cmd m_lim] in F. assert (K : dv c2 = mtr_actuate ld 1 zero_code (m_lim (r_mtr (rg b))) (dv c1)) by congruence. rewrite K.
  intros i Hi. destruct (mtr_actuate_rest ld 1 zero_code (m_lim (r_mtr (rg b))) (dv c1)) as [Q _]. rewrite Q. intros G. apply zero_rod; assumption.
Qed.

(** ** Wheels *)

Theorem wheel_call_executed ld b m v l b' :
  let mx := if m =? 1 then max_speed_command else max_torque in
  m = 1 \/ m = 2 -> in_range3 (- mx) mx v -> r_mode (rg b) = 1 ->
  Forall (avoids [1; 3; 4]) l -> (43 <= n_steps l)%nat -> brun ld b (sent (SetRwa m v) ++ l) = Some b' ->
  exists w, within_step3 65535 (- mx) mx v w /\
  exists l1 e l2 b1 b2, l = l1 ++ Step e :: l2 /\ brun ld b (sent (SetRwa m v) ++ l1) = Some b1 /\ bstep ld e b1 = Some b2 /\
    rwa_actuate e m w (dv b1) = Some (dv b2).
Proof.
  intros mx M V A T N R. destruct (wheel_command_arrives m v 0 (rg b) M V) as [ms [D [W [M1 F]]]]. fold mx in W.
  rewrite (sent_run _ _ _ _ _ D) in R. set (b1 := b_rg b (recv_all 0 ms (rg b)) (pc b)) in *.
  assert (A1 : r_mode (rg b1) = 1).
  { pose proof (driver_frame _ _ 0 (rg b) NMode D) as G. cbn [same_reg] in G. unfold b1. bcbn. rewrite G; [exact A|]. cbn. intuition discriminate. }
  exists (w_cmd (r_rwa (recv_all 0 ms (rg b)))). split; [exact W|].
  destruct (wheel_command_executed ld b1 l b') as [la [e [lb [c1 [c2 [X [Y [S G]]]]]]]]; try assumption.
  exists la, e, lb, c1, c2. split; [exact X|]. split; [rewrite (sent_run _ _ _ _ _ D); exact Y|]. split; [exact S|].
  unfold b1 in G. bcbn. cbn [rg b_rg] in G. rewrite M1 in G. exact G.
Qed.

Theorem rod_call_executed ld b v l b' :
  in_range3 (- max_moment) max_moment v -> r_mode (rg b) = 1 ->
  Forall (avoids [1; 10; 11; 12]) l -> (44 <= n_steps l)%nat -> brun ld b (sent (SetMtrCmd v) ++ l) = Some b' ->
  exists w, within_step3 65535 (- max_moment) max_moment v w /\
  exists l1 e l2 b1 b2, l = l1 ++ Step e :: l2 /\ brun ld b (sent (SetMtrCmd v) ++ l1) = Some b1 /\ bstep ld e b1 = Some b2 /\
    dv b2 = mtr_actuate ld (m_mode (r_mtr (rg b))) w (m_lim (r_mtr (rg b))) (dv b1).
Proof.
  intros V A T N R. destruct (rod_command_arrives v 0 (rg b) V) as [ms [D [W F]]].
  rewrite (sent_run _ _ _ _ _ D) in R. set (b1 := b_rg b (recv_all 0 ms (rg b)) (pc b)) in *.
  assert (FR : forall n, ~ In n [NMCmd; NMFlag] -> same_reg n (rg b) (rg b1)) by (intros n H; exact (driver_frame _ _ 0 (rg b) n D H)).
  assert (A1 : r_mode (rg b1) = 1) by (rewrite (FR NMode); [exact A|cbn; intuition discriminate]).
  assert (A2 : m_mode (r_mtr (rg b1)) = m_mode (r_mtr (rg b))) by (apply (FR NMMode); cbn; intuition discriminate).
  assert (A3 : m_lim (r_mtr (rg b1)) = m_lim (r_mtr (rg b))) by (apply (FR NMLimit); cbn; intuition discriminate).
  exists (m_cmd (r_mtr (recv_all 0 ms (rg b)))). split; [exact W|].
  destruct (rod_command_executed ld b1 l b') as [la [e [lb [c1 [c2 [X [Y [S G]]]]]]]]; try assumption.
  exists la, e, lb, c1, c2. split; [exact X|]. split; [rewrite (sent_run _ _ _ _ _ D); exact Y|]. split; [exact S|].
  rewrite A2, A3 in G. unfold b1 in G. cbn [rg b_rg] in G. congruence.
Qed.

(** a wheel stop that finds an earlier command still pending *)
Theorem pending_stop ld b l1 l2 b' :
  r_mode (rg b) = 1 -> w_flg (r_rwa (rg b)) = true ->
  Forall (avoids [1; 3]) l1 -> (43 <= n_steps l1)%nat -> Forall (avoids [3]) l2 ->
  brun ld b (sent (SetRwa 0 v0) ++ l1 ++ l2) = Some b' -> forall i, (i < 3)%nat -> fn (dv b') (7 + i) = true -> stopped (dv b') i.
Proof.
  intros A F T1 N T2 R. rewrite (sent_run _ _ (SetRwa 0 v0) [[3; 0]; [4; 0; 0; 0; 0; 0; 0]] _ eq_refl) in R.
  assert (Q : recv_all 0 [[3; 0]; [4; 0; 0; 0; 0; 0; 0]] (rg b) = set_rwa (rg b) (rw_mode (r_rwa (rg b)) 0)) by reflexivity.
  rewrite Q in R. eapply wheels_off_served; try exact R; try eassumption; bcbn; try (cbn; discriminate); assumption.
Qed.

(** ** Device tables *)

Theorem reset_end ld sm a b l b' : any_dev (a_rst a) = true -> Forall (avoids [28]) l -> (40 <= n_steps l)%nat ->
  exists t, In (SetReset t) (controller_calls sm a) /\
  (brun ld b (sent (SetReset t) ++ l) = Some b' ->
   exists l1 e l2 b1 b2, l = l1 ++ Step e :: l2 /\ brun ld b (sent (SetReset t) ++ l1) = Some b1 /\ bstep ld e b1 = Some b2 /\
   forall k, (k < n_dev)%nat ->
     (a_rst a k = false -> dev_view k (dv b2) = dev_view k (dv b1)) /\
     (a_rst a k = true -> dev_view k (dv b2) = idle_view (if bus_dev k then e_reset e k else true))).
Proof.
  intros AD T N. set (t := or_table (a_rst a) 0). exists t. assert (IN : In (SetReset t) (controller_calls sm a)) by (apply in_calls_reset; auto).
  split; [exact IN|]. intros R. pose proof (calls_table_range sm a t (or_introl IN)) as RG.
  assert (RG' : 0 <= t < 2 ^ 32) by lia.
  destruct (tables_arrive t 0 (rg b) RG') as [[ms [D [H1 H2]]] _]. rewrite (sent_run _ _ _ _ _ D) in R.
  destruct (reset_served ld t (b_rg b (recv_all 0 ms (rg b)) (pc b)) l b') as [la [e [lb [c1 [c2 [X [Y [S G]]]]]]]]; try assumption.
  exists la, e, lb, c1, c2. split; [exact X|]. split; [rewrite (sent_run _ _ _ _ _ D); exact Y|]. split; [exact S|]. intros k K.
  pose proof (reset_bits sm a t k IN K) as B. destruct (reset_table_effect e t (dv c1) k K) as [E1 E2]. rewrite G. split; intros HB.
  - apply E1. rewrite B. exact HB.
  - destruct E2 as [f [V [F1 F2]]]; [rewrite B; exact HB|]. rewrite V. f_equal. destruct (bus_dev k); auto.
Qed.

Theorem disable_end ld sm a b l b' : any_dev (a_dis a) = true -> Forall (avoids [29]) l -> (40 <= n_steps l)%nat ->
  exists t, In (SetDisable t) (controller_calls sm a) /\
  (brun ld b (sent (SetDisable t) ++ l) = Some b' ->
   exists l1 e l2 b1 b2, l = l1 ++ Step e :: l2 /\ brun ld b (sent (SetDisable t) ++ l1) = Some b1 /\ bstep ld e b1 = Some b2 /\
   forall k, (k < n_dev)%nat ->
     (a_rst a k || a_dis a k = false -> dev_view k (dv b2) = dev_view k (dv b1)) /\
     (a_rst a k || a_dis a k = true -> dev_view k (dv b2) = idle_view false)).
Proof.
  intros AD T N. set (t := or_table (a_dis a) (or_table (a_rst a) 0)). exists t. assert (IN : In (SetDisable t) (controller_calls sm a)) by (apply in_calls_disable; auto).
  split; [exact IN|]. intros R. pose proof (calls_table_range sm a t (or_intror IN)) as RG.
  assert (RG' : 0 <= t < 2 ^ 32) by lia.
  destruct (tables_arrive t 0 (rg b) RG') as [_ [ms [D [H1 H2]]]]. rewrite (sent_run _ _ _ _ _ D) in R.
  destruct (disable_served ld t (b_rg b (recv_all 0 ms (rg b)) (pc b)) l b') as [la [e [lb [c1 [c2 [X [Y [S G]]]]]]]]; try assumption.
  exists la, e, lb, c1, c2. split; [exact X|]. split; [rewrite (sent_run _ _ _ _ _ D); exact Y|]. split; [exact S|]. intros k K.
  pose proof (disable_bits sm a t k IN K) as B. destruct (disable_table_effect e t (dv c1) k K) as [E1 E2]. rewrite G. split; intros HB.
  - apply E1. rewrite B. exact HB.
  - apply E2. rewrite B. exact HB.
Qed.

Lemma no_reset a k : any_dev (a_rst a) = false -> (k < n_dev)%nat -> a_rst a k = false.
Proof. intros H K. destruct (a_rst a k) eqn:E; [|reflexivity]. assert (any_dev (a_rst a) = true) by (apply any_dev_in; eauto). congruence. Qed.

Lemma fields_cleared a k : (k < n_dev)%nat -> a_rst (controller_fields a) k = false /\ a_dis (controller_fields a) k = false.
Proof. intros K. cbn. unfold clear_dev. destruct (k <? n_dev)%nat eqn:E; [auto|lia]. Qed.

Lemma no_table_calls sm a c : any_dev (a_rst a) = false -> any_dev (a_dis a) = false -> In c (controller_calls sm a) ->
  match c with SetReset _ | SetDisable _ => False | _ => True end.
Proof.
  intros A B H. destruct c; try exact I.
  - apply in_calls_reset in H. destruct H. congruence.
  - apply in_calls_disable in H. destruct H. congruence.
Qed.

(** ** A rod limit that is not kept *)

Definition run_lim : list bev :=
  idle 13 ++ sent (SetMode 1) ++ sent (SetMtrMode 1) ++ sent (SetMtrCmd (V 0 0 (- (1 # 20)))) ++ sent (SetMtrLim (1 # 100)) ++ idle 31.
Definition over : box := match brun true (box0 all_up) run_lim with Some b => b | None => box0 all_up end.
Lemma over_run : brun true (box0 all_up) run_lim = Some over.
Proof. unfold over. destruct (brun true (box0 all_up) run_lim) eqn:E; [reflexivity|]. vm_compute in E. discriminate E. Qed.
Lemma over_facts : m_flg (r_mtr (rg over)) = false /\ fn (dv over) 3%nat = true /\ (m_lim (r_mtr (rg over)) < 1 # 100)%Q /\ (49 # 1000 < moment (dv over) 0)%Q.
Proof. vm_compute. repeat split. Qed.
Theorem limit_exceeded : exists b, reachable true b /\ fn (dv b) 3%nat = true /\ m_flg (r_mtr (rg b)) = false /\
  (4 * m_lim (r_mtr (rg b)) < moment (dv b) 0)%Q.
Proof.
  exists over. destruct over_facts as [A [B [C D]]]. split; [exists all_up, run_lim; exact over_run|]. split; [exact B|]. split; [exact A|]. lra.
Qed.

(** ** Readings that cannot be encoded *)

Lemma up_answers : answers (rg up) 8 = None.
Proof. vm_compute. reflexivity. Qed.
Theorem ramp_unreadable : exists b, reachable true b /\ answers (rg b) 8 = None.
Proof. exists up. split; [exact up_reachable|exact up_answers]. Qed.

(** full sunlight on one sensor *)
Definition se_sun : senv := mk_se None None None (fun _ => None) (fun _ => None) (fun j => if Nat.eqb j 0 then Some 2000 else Some 0) (V 0 0 1) (fun _ => true) true.
Definition lit : box := match brun true (box0 all_up) (repeat (Step se_sun) 13) with Some b => b | None => box0 all_up end.
Lemma lit_run : brun true (box0 all_up) (repeat (Step se_sun) 13) = Some lit.
Proof. unfold lit. destruct (brun true (box0 all_up) (repeat (Step se_sun) 13)) eqn:E; [reflexivity|]. vm_compute in E. discriminate E. Qed.
Lemma lit_answers : answers (rg lit) 17 = None.
Proof. vm_compute. reflexivity. Qed.
Theorem sun_unreadable : exists b, reachable true b /\ answers (rg b) 17 = None.
Proof. exists lit. split; [exists all_up, (repeat (Step se_sun) 13); exact lit_run|exact lit_answers]. Qed.

(** ** Fault flags and silence *)

Theorem unflagged_in_range z ans : let o := monitor z ans in
  (o_fspd o = false -> in_range3 (- max_speed_read) max_speed_read (o_spd o)) /\
  (o_fgyr o = false -> in_range3 (- max_omega) max_omega (o_gyr o)) /\
  (o_ftmp o = false -> in_range (-103) 153 (o_tmp o)).
Proof.
  assert (B : forall x mn mx, beyond x mn (mx - 1) = false -> in_range mn mx x).
  { intros x mn mx. unfold beyond, in_range. destruct (Qlt_le_dec x mn); [discriminate|]. destruct (Qlt_le_dec (mx - 1) x); [discriminate|]. intros _. split; [assumption|lra]. }
  assert (B3 : forall v mn mx, beyond3 v mn (mx - 1) = false -> in_range3 mn mx v).
  { intros v mn mx H. unfold beyond3 in H. apply orb_false_iff in H. destruct H as [H H3]. apply orb_false_iff in H. destruct H as [H1 H2].
    split; [|split]; apply B; assumption. }
  cbv zeta. unfold monitor. cbn [o_fspd o_spd o_fgyr o_gyr o_ftmp o_tmp]. split; [|split]; intros H; [apply B3|apply B3|apply B]; exact H.
Qed.

Theorem silent_not_functional z : z <> 15 -> z <> 2 -> let o := monitor z (fun _ => None) in o_ok o = false /\ o_sun o = None.
Proof.
  intros A B. cbv zeta. unfold monitor. cbn [o_ok o_sun fill repeat nth]. apply Z.eqb_neq in A, B. rewrite A, B. auto.
Qed.


(** ** The sun vector over a run *)

Theorem sun_stable ld b l b' v : s_mode (r_ssa (rg b)) = 2 -> s_vec (r_ssa (rg b)) = Some v -> pc b <> PSsaCalc ->
  Forall (avoids [14]) l -> brun ld b l = Some b' -> s_mode (r_ssa (rg b')) = 2 /\ s_vec (r_ssa (rg b')) = Some v.
Proof.
  intros A B C T R. pose proof (brun_inv ld _ _ (sun_is_inv ld v) l b b' T (conj A (conj B C)) R) as [X [Y _]]. auto.
Qed.

(** where a finished vector came from *)
Definition sun_from ld (b0 : box) (l : list bev) (b : box) : Prop := s_mode (r_ssa (rg b)) = 2 ->
  exists l1 e l2 b1, l = l1 ++ Step e :: l2 /\ brun ld b0 l1 = Some b1 /\ pc b1 = PSsaCalc /\ (4 <= length (ssa_lit (dv b1)))%nat /\
    s_vec (r_ssa (rg b)) = Some (e_sun e).

Lemma sun_calc_cases e h m v : sun_calc e h = (m, v) -> m = 0 \/ ((4 <= length (ssa_lit h))%nat /\ v = Some (e_sun e)).
Proof.
  unfold sun_calc. generalize (length (ssa_lit h)). intros n. destruct (Nat.ltb_spec n 4).
  - intros E. left. congruence.
  - intros E. right. split; [assumption|congruence].
Qed.

Lemma sun_step0 ld e b b' : bstep ld e b = Some b' ->
  (s_mode (r_ssa (rg b')) = s_mode (r_ssa (rg b)) /\ s_vec (r_ssa (rg b')) = s_vec (r_ssa (rg b))) \/
  (pc b = PSsaCalc /\ exists m v, sun_calc e (dv b) = (m, v) /\ s_mode (r_ssa (rg b')) = m /\ s_vec (r_ssa (rg b')) = v).
Proof.
  intros E. step_cases b E; try (left; split; reflexivity). right. split; [reflexivity|]. eexists. eexists. split; [reflexivity|split; reflexivity].
Qed.

Lemma sun_step ld e b b' : bstep ld e b = Some b' ->
  (s_mode (r_ssa (rg b')) = s_mode (r_ssa (rg b)) /\ s_vec (r_ssa (rg b')) = s_vec (r_ssa (rg b))) \/
  (pc b = PSsaCalc /\ (s_mode (r_ssa (rg b')) = 0 \/ ((4 <= length (ssa_lit (dv b)))%nat /\ s_vec (r_ssa (rg b')) = Some (e_sun e)))).
Proof.
  intros E. destruct (sun_step0 ld e b b' E) as [H|[P [m [v [S [M V]]]]]]; [left; exact H|]. right. split; [exact P|].
  rewrite M, V. apply (sun_calc_cases e (dv b)). exact S.
Qed.

Lemma sun_origin_at ld b0 l b : s_mode (r_ssa (rg b0)) <> 2 -> Forall asks_sun l -> brun ld b0 l = Some b -> sun_from ld b0 l b.
Proof.
  intros B0. revert b. induction l as [|v l IH] using rev_ind; intros b T R.
  - cbn in R. injection R as <-. intros M. contradiction.
  - destruct (brun_app_inv _ _ _ _ _ R) as [b1 [R1 R2]]. apply Forall_app in T. destruct T as [T1 T2]. specialize (IH b1 T1 R1).
    cbn [brun] in R2. destruct (bexec ld b1 v) as [b2|] eqn:E; [|discriminate R2]. cbn in R2. injection R2 as <-.
    inversion T2 as [|? ? TV _]; subst. clear T2.
    assert (CONT : s_mode (r_ssa (rg b2)) = s_mode (r_ssa (rg b1)) -> s_vec (r_ssa (rg b2)) = s_vec (r_ssa (rg b1)) -> sun_from ld b0 (l ++ [v]) b2).
    { intros Q1 Q2 M. rewrite Q1 in M. destruct (IH M) as [l1 [e [l2 [c [X [Y [P [L S]]]]]]]]. exists l1, e, (l2 ++ [v]), c. rewrite Q2.
      split; [rewrite X, <- app_assoc; reflexivity|]. auto. }
    destruct v as [z m|i|e].
    + rx_subst E b2. bcbn. cbn [asks_sun] in TV. destruct (recv_readings z m (rg b1)) as [_ [_ [Q _]]].
      destruct (recv_smode_cases z m (rg b1)) as [S|[S1 S2]].
      * apply CONT; bcbn; assumption.
      * intros M. exfalso. cbn [rg b_rg] in M. rewrite S2 in M. exact (TV S1 M).
    + pose proof (fail_rod_wheel _ _ _ _ E) as [E1 _]. apply CONT; rewrite E1; reflexivity.
    + cbn [bexec] in E. destruct (sun_step ld e b1 b2 E) as [[Q1 Q2]|[PC [Q|[Q1 Q2]]]].
      * apply CONT; assumption.
      * intros M. congruence.
      * intros M. exists l, e, [], b1. auto.
Qed.

Theorem sun_origin ld f l b : Forall asks_sun l -> brun ld (box0 f) l = Some b -> sun_from ld (box0 f) l b.
Proof. apply sun_origin_at. discriminate. Qed.

(** ** Forms used by the property file *)

Theorem disable_end_alone ld sm a b l b' : any_dev (a_dis a) = true -> any_dev (a_rst a) = false -> Forall (avoids [29]) l -> (40 <= n_steps l)%nat ->
  exists t, In (SetDisable t) (controller_calls sm a) /\
  (brun ld b (sent (SetDisable t) ++ l) = Some b' ->
   exists l1 e l2 b1 b2, l = l1 ++ Step e :: l2 /\ brun ld b (sent (SetDisable t) ++ l1) = Some b1 /\ bstep ld e b1 = Some b2 /\
   forall k, (k < n_dev)%nat ->
     (a_dis a k = false -> dev_view k (dv b2) = dev_view k (dv b1)) /\
     (a_dis a k = true -> dev_view k (dv b2) = idle_view false)).
Proof.
  intros A B T N. destruct (disable_end ld sm a b l b' A T N) as [t [I H]]. exists t. split; [exact I|]. intros R.
  destruct (H R) as [l1 [e [l2 [b1 [b2 [X [Y [S G]]]]]]]]. exists l1, e, l2, b1, b2. repeat (split; [assumption|]). intros k K.
  specialize (G k K). rewrite (no_reset a k B K) in G. exact G.
Qed.

Theorem disable_end_leak ld sm a b l b' : any_dev (a_dis a) = true -> Forall (avoids [29]) l -> (40 <= n_steps l)%nat ->
  exists t, In (SetDisable t) (controller_calls sm a) /\
  (brun ld b (sent (SetDisable t) ++ l) = Some b' ->
   exists l1 e l2 b1 b2, l = l1 ++ Step e :: l2 /\ brun ld b (sent (SetDisable t) ++ l1) = Some b1 /\ bstep ld e b1 = Some b2 /\
   forall k, (k < n_dev)%nat -> a_rst a k = true -> dev_view k (dv b2) = idle_view false).
Proof.
  intros A T N. destruct (disable_end ld sm a b l b' A T N) as [t [I H]]. exists t. split; [exact I|]. intros R.
  destruct (H R) as [l1 [e [l2 [b1 [b2 [X [Y [S G]]]]]]]]. exists l1, e, l2, b1, b2. repeat (split; [assumption|]). intros k K HK.
  destruct (G k K) as [_ G2]. apply G2. rewrite HK. reflexivity.
Qed.

Theorem torque_ignored e c h : fn h 6%nat = false -> rwa_actuate e 2 c h = Some h.
Proof. intros F. unfold rwa_actuate. rewrite F. reflexivity. Qed.

Theorem passive_frozen ld ro wc wcc b l b' : frozen ro wc wcc b -> Forall (calls_only passive_call) l ->
  brun ld b l = Some b' -> rod (dv b') = ro /\ wcw (dv b') = wc /\ wccw (dv b') = wcc.
Proof.
  intros F T R. pose proof (brun_inv ld _ _ (frozen_passive ld ro wc wcc) l b b' T F R) as [_ [_ [_ [_ [W1 [W2 W3]]]]]]. auto.
Qed.

Theorem inertial_end f ld e1 e2 l b z : env_ok e1 -> env_ok e2 -> Forall real_ev l ->
  brun ld (box0 f) (Step e1 :: Step e2 :: l) = Some b ->
  exists a, answers (rg b) 21 = Some a /\
  let o := monitor z (answers (rg b)) in
  within_step3 65535 (- max_mag1) max_mag1 (i_b1 (r_imu (rg b))) (o_b1 o) /\
  within_step3 65535 (- max_mag2) max_mag2 (i_b2 (r_imu (rg b))) (o_b2 o) /\
  within_step3 65535 (- max_omega) max_omega (i_gyr (r_imu (rg b))) (o_gyr o) /\
  within_step 65535 (-103) 153 (i_tmp (r_imu (rg b))) (o_tmp o).
Proof. intros A B C R. apply imu_readback. destruct (box0_imu f ld e1 e2 l b A B C R) as [_ [_ H]]. exact H. Qed.

(** checks for concrete runs *)
Definition asks_sun_b (v : bev) : bool := match v with Rx _ m => negb ((addr m =? 14) && (nth 1 m 0 =? 2)) | _ => true end.
Definition no_speed_b (v : bev) : bool :=
  match v with Rx z m => (0 <=? z) && (z <? 256) && forallb (fun x => (0 <=? x) && (x <? 256)) m && negb ((addr m =? 3) && (nth 1 m 0 =? 1)) | _ => true end.

Lemma asks_sun_check l : forallb asks_sun_b l = true -> Forall asks_sun l.
Proof. intros H. rewrite forallb_forall in H. apply Forall_forall. intros v I. specialize (H v I). destruct v; cbn in *; try exact I0; auto. intros A B. rewrite A, B in H. discriminate. Qed.

Lemma no_speed_check l : forallb no_speed_b l = true -> Forall no_speed l.
Proof.
  intros H. rewrite forallb_forall in H. apply Forall_forall. intros v I. specialize (H v I). destruct v; cbn [no_speed no_speed_b] in *; auto.
  apply andb_true_iff in H. destruct H as [H A]. apply andb_true_iff in H. destruct H as [H B]. split; [lia|]. split.
  - unfold bytes. apply Forall_forall. rewrite forallb_forall in B. intros x X. specialize (B x X). lia.
  - intros C D. rewrite C, D in A. discriminate.
Qed.
