(** Proofs about the attitude computer: hardware table commands, torn commands, idle devices, passive mode. *)
From Verif Require Import Base AdcsModel AdcsSpec AdcsConvProofs AdcsRecvProofs AdcsActProofs AdcsRunProofs AdcsServeProofs.
From Coq Require Import QArith Qabs Lqa.
Local Open Scope Z_scope.

(** ** Reset and disable requests are served *)

Definition rst_good (t : Z) (b : box) : bool :=
  match pc b with
  | PRstRd => negb (h_rflg (r_hav (rg b)))
  | PRstChk => negb (h_rflg (r_hav (rg b))) && (l_tab b =? t)
  | _ => false
  end.
Definition rst_pending (t : Z) (b : box) : Prop :=
  h_rst (r_hav (rg b)) = t /\ (h_rflg (r_hav (rg b)) = true \/ rst_good t b = true).
Definition rst_mu t := mu 30 33 (rst_good t).
Definition rst_done (t : Z) (b : box) (e : senv) : Prop := pc b = PRstChk /\ h_rflg (r_hav (rg b)) = false /\ l_tab b = t.

Lemma rst_serve_step ld t b e b' : rst_pending t b -> bstep ld e b = Some b' ->
  rst_done t b e \/ (rst_pending t b' /\ (rst_mu t b' < rst_mu t b)%nat).
Proof.
  unfold rst_pending, rst_mu, mu, rst_good, rst_done. intros [A C] E. step_cases b E.
  all: try (destruct (h_rflg (r_hav r)) eqn:F; cbn [negb andb] in *; destruct C as [C|C]; try discriminate C).
  all: try (bfix; subst; rewrite ?Z.eqb_refl in *).
  all: serve_solve.
Qed.

Definition dis_good (t : Z) (b : box) : bool :=
  match pc b with
  | PDisRd => negb (h_dflg (r_hav (rg b)))
  | PDisChk => negb (h_dflg (r_hav (rg b))) && (l_tab b =? t)
  | _ => false
  end.
Definition dis_pending (t : Z) (b : box) : Prop :=
  h_dis (r_hav (rg b)) = t /\ (h_dflg (r_hav (rg b)) = true \/ dis_good t b = true).
Definition dis_mu t := mu 34 37 (dis_good t).
Definition dis_done (t : Z) (b : box) (e : senv) : Prop := pc b = PDisChk /\ h_dflg (r_hav (rg b)) = false /\ l_tab b = t.

Lemma dis_serve_step ld t b e b' : dis_pending t b -> bstep ld e b = Some b' ->
  dis_done t b e \/ (dis_pending t b' /\ (dis_mu t b' < dis_mu t b)%nat).
Proof.
  unfold dis_pending, dis_mu, mu, dis_good, dis_done. intros [A C] E. step_cases b E.
  all: try (destruct (h_dflg (r_hav r)) eqn:F; cbn [negb andb] in *; destruct C as [C|C]; try discriminate C).
  all: try (bfix; subst; rewrite ?Z.eqb_refl in *).
  all: serve_solve.
Qed.

Lemma rst_serve_quiet ld t b v b' : (forall e, v <> Step e) -> avoids [28] v -> rst_pending t b -> bexec ld b v = Some b' ->
  rst_pending t b' /\ (rst_mu t b' <= rst_mu t b)%nat.
Proof.
  intros N T [A C] E. destruct v as [z m|i|e]; [| |exfalso; apply (N e); reflexivity].
  - rx_subst E b'. cbn [avoids] in T. assert (T1 : addr m <> 28) by av T. destruct (recv_rst z m (rg b) T1) as [Q1 Q2].
    unfold rst_pending, rst_mu, mu, rst_good in *. bcbn. rewrite Q1, Q2. split; [split; assumption|apply Nat.le_refl].
  - apply fail_rod_wheel in E. destruct E as [E1 [E2 [E3 [_ [E4 _]]]]].
    unfold rst_pending, rst_mu, mu, rst_good in *. rewrite E1, E2, E4. split; [split; assumption|apply Nat.le_refl].
Qed.

Lemma dis_serve_quiet ld t b v b' : (forall e, v <> Step e) -> avoids [29] v -> dis_pending t b -> bexec ld b v = Some b' ->
  dis_pending t b' /\ (dis_mu t b' <= dis_mu t b)%nat.
Proof.
  intros N T [A C] E. destruct v as [z m|i|e]; [| |exfalso; apply (N e); reflexivity].
  - rx_subst E b'. cbn [avoids] in T. assert (T1 : addr m <> 29) by av T. destruct (recv_dis z m (rg b) T1) as [Q1 Q2].
    unfold dis_pending, dis_mu, mu, dis_good in *. bcbn. rewrite Q1, Q2. split; [split; assumption|apply Nat.le_refl].
  - apply fail_rod_wheel in E. destruct E as [E1 [E2 [E3 [_ [E4 _]]]]].
    unfold dis_pending, dis_mu, mu, dis_good in *. rewrite E1, E2, E4. split; [split; assumption|apply Nat.le_refl].
Qed.


Theorem reset_served ld t b l b' : h_rst (r_hav (rg b)) = t -> h_rflg (r_hav (rg b)) = true ->
  Forall (avoids [28]) l -> (40 <= n_steps l)%nat -> brun ld b l = Some b' -> applies ld b l (fun e => exec_reset e t).
Proof.
  intros A B T N R.
  destruct (serve ld (rst_pending t) (rst_mu t) (rst_done t) (avoids [28]) (rst_serve_quiet ld t) (rst_serve_step ld t))
    with (l := l) (b := b) (b' := b') as [la [e [lb [b1 [X [Y [D1 [D2 D3]]]]]]]]; try assumption.
  { intros g _. apply mu_pos; [lia|]. unfold rst_good. destruct (pc g); cbn; intros; lia || discriminate. }
  { split; auto. }
  { unfold rst_mu, mu, rst_good. rewrite B. destruct (pc b); cbn; lia. }
  exists la, e, lb, b1. eexists. split; [exact X|]. split; [exact Y|]. unfold bstep. rewrite D1, D2, D3. split; reflexivity.
Qed.

Theorem disable_served ld t b l b' : h_dis (r_hav (rg b)) = t -> h_dflg (r_hav (rg b)) = true ->
  Forall (avoids [29]) l -> (40 <= n_steps l)%nat -> brun ld b l = Some b' -> applies ld b l (fun e => exec_disable e t).
Proof.
  intros A B T N R.
  destruct (serve ld (dis_pending t) (dis_mu t) (dis_done t) (avoids [29]) (dis_serve_quiet ld t) (dis_serve_step ld t))
    with (l := l) (b := b) (b' := b') as [la [e [lb [b1 [X [Y [D1 [D2 D3]]]]]]]]; try assumption.
  { intros g _. apply mu_pos; [lia|]. unfold dis_good. destruct (pc g); cbn; intros; lia || discriminate. }
  { split; auto. }
  { unfold dis_mu, mu, dis_good. rewrite B. destruct (pc b); cbn; lia. }
  exists la, e, lb, b1. eexists. split; [exact X|]. split; [exact Y|]. unfold bstep. rewrite D1, D2, D3. split; reflexivity.
Qed.

(** nothing but a reset makes a device functional, nothing but a disable or a transfer error makes it non-functional *)
Theorem functional_only ld b v b' k : (k < n_dev)%nat -> bexec ld b v = Some b' -> fn (dv b') k <> fn (dv b) k ->
  (exists e, v = Step e /\ pc b = PRstChk /\ Z.testbit (l_tab b) (Z.of_nat k) = true) \/
  (exists e, v = Step e /\ pc b = PDisChk /\ Z.testbit (l_tab b) (Z.of_nat k) = true) \/ v = Fail k.
Proof.
  intros Hk E D. destruct v as [z m|i|e].
  - rx_subst E b'. exfalso. apply D. reflexivity.
  - right; right. cbn [bexec] in E. destruct (bus_dev i); injection E as <-; cbn in D; [|exfalso; apply D; reflexivity].
    unfold fup in D. destruct (Nat.eqb_spec k i); [subst; reflexivity|exfalso; apply D; reflexivity].
  - cbn [bexec] in E. step_cases b E; try (exfalso; apply D; reflexivity).
    + exfalso. apply D. destruct (imu_keeps e (r_imu r) h) as [K _]. rewrite K. reflexivity.
    + exfalso. apply D. destruct (mtr_actuate_rest ld lm lc (m_lim (r_mtr r)) h) as [K _]. rewrite K. reflexivity.
    + exfalso. apply D. match goal with H : rwa_actuate _ _ _ _ = Some _ |- _ => apply rwa_actuate_rest in H; destruct H as [[K _] _] end. rewrite K. reflexivity.
    + left. exists e. split; [reflexivity|]. split; [reflexivity|].
      destruct (reset_table_effect e lt h k Hk) as [X _]. destruct (Z.testbit lt (Z.of_nat k)); [reflexivity|].
      exfalso. apply D. specialize (X eq_refl). unfold dev_view in X. congruence.
    + right; left. exists e. split; [reflexivity|]. split; [reflexivity|].
      destruct (disable_table_effect e lt h k Hk) as [X _]. destruct (Z.testbit lt (Z.of_nat k)); [reflexivity|].
      exfalso. apply D. specialize (X eq_refl). unfold dev_view in X. congruence.
Qed.

(** ** A device that is not functional is idle *)

Definition all_idle (b : box) : Prop := forall k, (k < n_dev)%nat -> fn (dv b) k = false -> dev_view k (dv b) = idle_view false.

Lemma view_parts k h : dev_view k h = idle_view false <->
  fn h k = false /\ (is_rod k = true -> rod h (k - 3) = 0) /\ (is_wheel k = true -> stopped h (k - 7)) /\ (k = 18%nat -> heat h = 0).
Proof.
  unfold dev_view, idle_view, stopped. split.
  - intros X. injection X as A B C D. split; [exact A|]. split; [intros R; rewrite R in B; exact B|]. split.
    + intros W. rewrite W in C. injection C as C1 C2. auto.
    + intros ->. cbn in D. exact D.
  - intros [A [B [C D]]]. rewrite A. destruct (is_rod k); [rewrite B by reflexivity|]; (destruct (is_wheel k); [destruct C as [-> ->]; [reflexivity|]|]);
      (destruct (Nat.eqb_spec k 18); [rewrite D by assumption|]); reflexivity.
Qed.

Lemma gyr_heat e a b c d h : fn h 18 = false -> heat (gyr_update e a b c d h) = 0.
Proof.
  intros F. unfold gyr_update. cbv zeta. destruct (if fn h 0 then e_gyr e else None) as [[t w]|]; cbn [fn hw_gyr]; rewrite F; reflexivity.
Qed.

Lemma imu_heat e i h : heat (imu_update e i h) = heat (gyr_update e (i_gflt i) (i_des i) (i_tflt i) (i_pwm i) h).
Proof.
  unfold imu_update. remember (gyr_update e (i_gflt i) (i_des i) (i_tflt i) (i_pwm i) h) as h1. clear Heqh1.
  unfold mag2_update. destruct (negb (fn _ 2)); cbv zeta; [|destruct (i_m2 i =? 1), (e_b2 e); cbn [heat hw_b2]];
    (unfold mag1_update; destruct (negb (fn h1 1)); [reflexivity|destruct (e_b1 e); reflexivity]).
Qed.

Lemma all_idle_inv ld b v b' : True -> all_idle b -> bexec ld b v = Some b' -> all_idle b'.
Proof.
  intros _ H E. destruct v as [z m|i|e].
  - rx_subst E b'. exact H.
  - pose proof (fail_rod_wheel i b b' ld E) as [_ [_ [_ [_ [_ [F1 [F2 [F3 [F4 [F5 _]]]]]]]]]].
    intros k Hk F. destruct (bus_dev k) eqn:B.
    + apply view_parts. split; [exact F|]. unfold bus_dev in B. apply negb_true_iff in B. apply orb_false_iff in B. destruct B as [B B3].
      apply orb_false_iff in B. destruct B as [B1 B2]. apply Nat.eqb_neq in B3. split; [congruence|split; [congruence|contradiction]].
    + rewrite F1 in F by exact B. specialize (H k Hk F). apply view_parts in H. apply view_parts. destruct H as [H1 [H2 [H3 H4]]].
      unfold stopped in *. rewrite F1, F2, F3, F4, F5 by exact B. auto.
  - cbn [bexec] in E. unfold all_idle in *. step_cases b E; try exact H.
    + intros k Hk F. destruct (imu_keeps e (r_imu r) h) as [K1 [K2 [K3 [K4 _]]]]. rewrite K1 in F. specialize (H k Hk F).
      apply view_parts in H. apply view_parts. destruct H as [H1 [H2 [H3 H4]]]. unfold stopped in *. rewrite K1, K2, K3, K4.
      split; [exact H1|split; [exact H2|split; [exact H3|]]]. intros ->. rewrite imu_heat. apply gyr_heat. exact H1.
    + intros k Hk F. destruct (mtr_actuate_rest ld lm lc (m_lim (r_mtr r)) h) as [K1 [K2 [K3 [K4 _]]]]. rewrite K1 in F. pose proof (H k Hk F) as H'.
      apply view_parts in H'. apply view_parts. destruct H' as [H1 [H2 [H3 H4]]]. unfold stopped in *. rewrite K1, K2, K3, K4.
      split; [exact H1|split; [|split; [exact H3|exact H4]]]. intros R. pose proof (rod_range k R) as RR.
      rewrite mtr_actuate_rod by lia. replace (3 + (k - 3))%nat with k by lia. rewrite F. apply H2. exact R.
    + intros k Hk F. match goal with H : rwa_actuate _ _ _ _ = Some _ |- _ => apply rwa_actuate_rest in H; destruct H as [[K1 [K2 [K3 _]]] K4] end.
      rewrite K1 in F. pose proof (H k Hk F) as H'. apply view_parts in H'. apply view_parts. destruct H' as [H1 [H2 [H3 H4]]]. unfold stopped in *. rewrite K1, K2, K3.
      split; [exact H1|split; [exact H2|split; [|exact H4]]]. intros W. pose proof (wheel_range k W) as WR.
      assert (FW : fn h (7 + (k - 7)) = false) by (replace (7 + (k - 7))%nat with k by lia; exact F).
      destruct (K4 (k - 7)%nat ltac:(lia) FW) as [-> ->]. apply H3. exact W.
    + intros k Hk F. destruct (reset_table_effect e lt h k Hk) as [X Y]. destruct (Z.testbit lt (Z.of_nat k)).
      * destruct (Y eq_refl) as [f [Y1 _]]. rewrite Y1. apply f_equal. unfold dev_view, idle_view in Y1. congruence.
      * rewrite X in * by reflexivity. apply H; [exact Hk|]. specialize (X eq_refl). unfold dev_view in X. congruence.
    + intros k Hk F. destruct (disable_table_effect e lt h k Hk) as [X Y]. destruct (Z.testbit lt (Z.of_nat k)).
      * apply Y. reflexivity.
      * rewrite X in * by reflexivity. apply H; [exact Hk|]. specialize (X eq_refl). unfold dev_view in X. congruence.
Qed.

Lemma box0_idle f : all_idle (box0 f).
Proof.
  intros k Hk F. apply view_parts. split; [exact F|]. cbn. unfold stopped. cbn. auto.
Qed.

Theorem idle_always ld f l b k : brun ld (box0 f) l = Some b -> (k < n_dev)%nat -> fn (dv b) k = false -> dev_view k (dv b) = idle_view false.
Proof.
  intros R. assert (T : Forall (fun _ : bev => True) l) by (induction l; constructor; auto; fail || (apply Forall_forall; auto)).
  apply (brun_inv ld all_idle (fun _ => True) (all_idle_inv ld) l (box0 f) b T (box0_idle f) R k).
Qed.

(** ** Passive mode: nothing is actuated, so nothing is switched off either *)

Definition acting (p : bpc) : bool :=
  ((6 <=? ord p)%nat && (ord p <? 14)%nat) || ((15 <=? ord p)%nat && (ord p <? 24)%nat) || ((30 <=? ord p)%nat && negb (ord p =? 33)%nat).
Definition frozen (ro : nat -> Z) (wc wcc : nat -> bool) (b : box) : Prop :=
  r_mode (rg b) <> 1 /\ acting (pc b) = false /\ h_rflg (r_hav (rg b)) = false /\ h_dflg (r_hav (rg b)) = false /\
  rod (dv b) = ro /\ wcw (dv b) = wc /\ wccw (dv b) = wcc.

Lemma frozen_inv ld ro wc wcc b v b' : avoids [1; 28; 29] v -> frozen ro wc wcc b -> bexec ld b v = Some b' -> frozen ro wc wcc b'.
Proof.
  intros T [A [B [C [D [E1 [E2 E3]]]]]] E. destruct v as [z m|i|e].
  - rx_subst E b'. cbn [avoids] in T. assert (T1 : addr m <> 1) by av T. assert (T2 : addr m <> 28) by av T. assert (T3 : addr m <> 29) by av T.
    destruct (recv_rst z m (rg b) T2) as [_ Q3]. destruct (recv_dis z m (rg b) T3) as [_ Q4].
    unfold frozen. bcbn. rewrite (recv_rmode z m (rg b) T1), Q3, Q4. repeat split; assumption.
  - apply fail_rod_wheel in E. destruct E as [F1 [F2 [_ [_ [_ [_ [F3 [F4 [F5 _]]]]]]]]]. unfold frozen. rewrite F1, F2, F3, F4, F5. repeat split; assumption.
  - cbn [bexec] in E. unfold frozen in *. step_cases b E; try discriminate B.
    all: try (bfix; congruence).
    all: try (repeat split; (assumption || reflexivity)).
    destruct (imu_keeps e (r_imu r) h) as [K1 [K2 [K3 [K4 _]]]]. rewrite K2, K3, K4. repeat split; assumption.
Qed.

(** ** Torn commands *)

Definition was_cmd ld (b0 : box) (l : list bev) (get : regs -> vec) (c : vec) : Prop :=
  exists l1 l2 b1, l = l1 ++ l2 /\ brun ld b0 l1 = Some b1 /\ get (rg b1) = c.

Definition rods_whole ld b0 l (b : box) : Prop :=
  match pc b with
  | PMtrRd1 => m_flg (r_mtr (rg b)) = false -> vx (l_cmd b) = vx (m_cmd (r_mtr (rg b)))
  | PMtrRd2 => m_flg (r_mtr (rg b)) = false -> vx (l_cmd b) = vx (m_cmd (r_mtr (rg b))) /\ vy (l_cmd b) = vy (m_cmd (r_mtr (rg b)))
  | PMtrChk => m_flg (r_mtr (rg b)) = false -> l_cmd b = m_cmd (r_mtr (rg b))
  | PMtrAct => was_cmd ld b0 l (fun r => m_cmd (r_mtr r)) (l_cmd b)
  | _ => True
  end.
Definition wheels_whole (b : box) : Prop :=
  match pc b with
  | PRwaRd1 => w_flg (r_rwa (rg b)) = false -> vx (l_cmd b) = vx (w_cmd (r_rwa (rg b)))
  | PRwaRd2 => w_flg (r_rwa (rg b)) = false -> vx (l_cmd b) = vx (w_cmd (r_rwa (rg b))) /\ vy (l_cmd b) = vy (w_cmd (r_rwa (rg b)))
  | PRwaChk => w_flg (r_rwa (rg b)) = false -> l_cmd b = w_cmd (r_rwa (rg b))
  | _ => True
  end.

Lemma brun_snoc ld b0 l v b b' : brun ld b0 l = Some b -> bexec ld b v = Some b' -> brun ld b0 (l ++ [v]) = Some b'.
Proof. intros A B. rewrite brun_app, A. cbn. rewrite B. reflexivity. Qed.

Lemma was_cmd_more ld b0 l v get c : was_cmd ld b0 l get c -> was_cmd ld b0 (l ++ [v]) get c.
Proof. intros [l1 [l2 [b1 [-> [A B]]]]]. exists l1, (l2 ++ [v]), b1. rewrite app_assoc. auto. Qed.

Lemma rods_whole_run ld b0 l b : in_rods (pc b0) = false -> brun ld b0 l = Some b -> rods_whole ld b0 l b.
Proof.
  intros P. revert b. induction l as [|v l IH] using rev_ind; intros b R.
  - cbn in R. injection R as <-. unfold rods_whole. destruct (pc b0); try exact I; discriminate P.
  - destruct (brun_app_inv _ _ _ _ _ R) as [b1 [R1 R2]]. specialize (IH _ R1). cbn [brun] in R2.
    destruct (bexec ld b1 v) as [b2|] eqn:E; [|discriminate R2]. cbn in R2. injection R2 as <-.
    destruct v as [z m|i|e].
    + rx_subst E b2. unfold rods_whole in *. bcbn. destruct (pc b1); try exact I; try (apply was_cmd_more; exact IH);
        intros F; destruct (recv_mtr_clean z m (rg b1) F) as [Q1 [_ Q2]]; rewrite Q1; apply IH; exact Q2.
    + apply fail_rod_wheel in E. destruct E as [F1 [F2 [_ [F3 _]]]]. unfold rods_whole in *. rewrite F1, F2, F3.
      destruct (pc b1); try exact IH. apply was_cmd_more. exact IH.
    + cbn [bexec] in E. unfold rods_whole in *. step_cases b1 E; try exact I.
      * intros _. reflexivity.
      * intros F. split; [apply IH; exact F|reflexivity].
      * intros F. destruct (IH F) as [A B]. cbn [vx vy vz]. destruct (m_cmd (r_mtr r)); cbn in *. congruence.
      * rewrite IH by reflexivity. eexists l, [Step e], _. split; [reflexivity|]. split; [exact R1|]. reflexivity.
Qed.

Lemma wheels_whole_run ld b0 l b : in_wheels (pc b0) = false -> brun ld b0 l = Some b -> wheels_whole b.
Proof.
  intros P. revert b. induction l as [|v l IH] using rev_ind; intros b R.
  - cbn in R. injection R as <-. unfold wheels_whole. destruct (pc b0); try exact I; discriminate P.
  - destruct (brun_app_inv _ _ _ _ _ R) as [b1 [R1 R2]]. specialize (IH _ R1). cbn [brun] in R2.
    destruct (bexec ld b1 v) as [b2|] eqn:E; [|discriminate R2]. cbn in R2. injection R2 as <-.
    destruct v as [z m|i|e].
    + rx_subst E b2. unfold wheels_whole in *. bcbn. destruct (pc b1); try exact I;
        intros F; destruct (recv_rwa_clean z m (rg b1) F) as [Q1 Q2]; rewrite Q1; apply IH; exact Q2.
    + apply fail_rod_wheel in E. destruct E as [F1 [F2 [_ [F3 _]]]]. unfold wheels_whole in *. rewrite F1, F2, F3. exact IH.
    + cbn [bexec] in E. unfold wheels_whole in *. step_cases b1 E; try exact I.
      * intros _. reflexivity.
      * intros F. split; [apply IH; exact F|reflexivity].
      * intros F. destruct (IH F) as [A B]. cbn [vx vy vz]. destruct (w_cmd (r_rwa r)); cbn in *. congruence.
Qed.
