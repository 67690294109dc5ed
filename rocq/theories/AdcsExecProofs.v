(** Proofs about commands being executed, the age of readings, and the flight computer's commander and controller. *)
From Verif Require Import Base AdcsModel AdcsSpec AdcsConvProofs AdcsRecvProofs AdcsActProofs AdcsRunProofs AdcsServeProofs AdcsTableProofs AdcsMonProofs.
From Coq Require Import QArith Qabs Lqa.
Local Open Scope Z_scope.

(** ** A wheel command is executed with its mode and vector *)

Definition wx_good (m : Z) (b : box) : bool :=
  match pc b with
  | PRwaRdM => negb (w_flg (r_rwa (rg b)))
  | PRwaRd0 | PRwaRd1 | PRwaRd2 | PRwaChk => negb (w_flg (r_rwa (rg b))) && (l_mode b =? m)
  | _ => false
  end.
Definition wx_pending (m : Z) (c : vec) (b : box) : Prop :=
  r_mode (rg b) = 1 /\ w_mode (r_rwa (rg b)) = m /\ w_cmd (r_rwa (rg b)) = c /\ wheels_whole b /\
  (w_flg (r_rwa (rg b)) = true \/ wx_good m b = true).
Definition wx_mu m := mu 16 22 (wx_good m).
Definition wx_done m c (b : box) (e : senv) : Prop :=
  pc b = PRwaChk /\ l_mode b = m /\ l_cmd b = c /\ w_flg (r_rwa (rg b)) = false.

Lemma wheels_whole_step ld e b b' : wheels_whole b -> bstep ld e b = Some b' -> wheels_whole b'.
Proof.
  intros IH E. unfold wheels_whole in *. step_cases b E; try exact I.
  - intros _. reflexivity.
  - intros F. split; [apply IH; exact F|reflexivity].
  - intros F. destruct (IH F) as [A B]. cbn [vx vy vz]. destruct (w_cmd (r_rwa r)); cbn in *. congruence.
Qed.

Lemma wx_core ld m b e b' : r_mode (rg b) = 1 -> w_mode (r_rwa (rg b)) = m -> (w_flg (r_rwa (rg b)) = true \/ wx_good m b = true) ->
  bstep ld e b = Some b' ->
  (pc b = PRwaChk /\ l_mode b = m /\ w_flg (r_rwa (rg b)) = false) \/
  ((r_mode (rg b') = 1 /\ w_mode (r_rwa (rg b')) = m /\ (w_flg (r_rwa (rg b')) = true \/ wx_good m b' = true)) /\ (wx_mu m b' < wx_mu m b)%nat).
Proof.
  unfold wx_mu, mu, wx_good. intros A B C E. step_cases b E.
  all: try (destruct (w_flg (r_rwa r)) eqn:F; cbn [negb andb] in *; destruct C as [C|C]; try discriminate C).
  all: try (bfix; subst; rewrite ?Z.eqb_refl in *).
  all: serve_solve.
Qed.

Lemma step_wcmd ld e b b' : bstep ld e b = Some b' -> w_cmd (r_rwa (rg b')) = w_cmd (r_rwa (rg b)).
Proof. intros E. step_cases b E; reflexivity. Qed.

Lemma wx_serve_step ld m c b e b' : wx_pending m c b -> bstep ld e b = Some b' ->
  wx_done m c b e \/ (wx_pending m c b' /\ (wx_mu m b' < wx_mu m b)%nat).
Proof.
  intros [A [B [C [D F]]]] E. destruct (wx_core ld m b e b' A B F E) as [[X [Y Z']]|[[X [Y Z']] W]].
  - left. unfold wx_done. repeat split; try assumption. unfold wheels_whole in D. rewrite X in D. rewrite (D Z'). exact C.
  - right. split; [|exact W]. split; [exact X|]. split; [exact Y|]. split; [rewrite (step_wcmd _ _ _ _ E); exact C|]. split; [|exact Z'].
    eapply wheels_whole_step; eassumption.
Qed.

Lemma wx_serve_quiet ld m c b v b' : (forall e, v <> Step e) -> avoids [1; 3; 4] v -> wx_pending m c b -> bexec ld b v = Some b' ->
  wx_pending m c b' /\ (wx_mu m b' <= wx_mu m b)%nat.
Proof.
  intros N T [A [B [C [D F]]]] E. destruct v as [z msg|i|e]; [| |exfalso; apply (N e); reflexivity].
  - rx_subst E b'. cbn [avoids] in T. assert (T1 : addr msg <> 1) by av T. assert (T2 : addr msg <> 3) by av T. assert (T3 : addr msg <> 4) by av T.
    destruct (recv_rwa z msg (rg b) T2 T3) as [Q1 [Q2 Q3]].
    unfold wx_pending, wx_mu, mu, wx_good, wheels_whole in *. bcbn. rewrite Q1, Q2, Q3, (recv_rmode z msg (rg b) T1).
    split; [repeat split; assumption|apply Nat.le_refl].
  - apply fail_rod_wheel in E. destruct E as [E1 [E2 [E3 [E4 _]]]].
    unfold wx_pending, wx_mu, mu, wx_good, wheels_whole in *. rewrite E1, E2, E3, E4. split; [repeat split; assumption|apply Nat.le_refl].
Qed.


Theorem wheel_command_executed ld b l b' :
  r_mode (rg b) = 1 -> w_flg (r_rwa (rg b)) = true -> Forall (avoids [1; 3; 4]) l -> (43 <= n_steps l)%nat -> brun ld b l = Some b' ->
  does ld b l (fun e b1 => rwa_actuate e (w_mode (r_rwa (rg b))) (w_cmd (r_rwa (rg b))) (dv b1)).
Proof.
  intros A F T N R.
  destruct (serve ld (wx_pending (w_mode (r_rwa (rg b))) (w_cmd (r_rwa (rg b)))) (wx_mu (w_mode (r_rwa (rg b))))
     (wx_done (w_mode (r_rwa (rg b))) (w_cmd (r_rwa (rg b)))) (avoids [1; 3; 4]) (wx_serve_quiet ld _ _) (wx_serve_step ld _ _))
    with (l := l) (b := b) (b' := b') as [la [e [lb [b1 [X [Y [D1 [D2 [D3 D4]]]]]]]]]; try assumption.
  { intros g _. apply mu_pos; [lia|]. unfold wx_good. destruct (pc g); cbn; intros; lia || discriminate. }
  { repeat split; auto. unfold wheels_whole. rewrite F. destruct (pc b); exact I || discriminate. }
  { unfold wx_mu, mu, wx_good. rewrite F. destruct (pc b); cbn; lia. }
  rewrite X in R. destruct (brun_app_inv _ _ _ _ _ R) as [b1' [Y' R3]]. assert (b1' = b1) by congruence. subst b1'.
  cbn [brun bexec] in R3. destruct (bstep ld e b1) as [b2|] eqn:S; [|discriminate R3].
  exists la, e, lb, b1, b2. split; [exact X|]. split; [exact Y|]. split; [exact S|].
  unfold bstep in S. rewrite D1, D2, D3, D4 in S. destruct (rwa_actuate e _ _ (dv b1)) as [h'|]; [|discriminate S]. cbn in S. injection S as <-. reflexivity.
Qed.

(** ** A rod command is executed with its mode and vector *)

Definition mx_good (m : Z) (b : box) : bool :=
  match pc b with
  | PMtrRdM => negb (m_flg (r_mtr (rg b)))
  | PMtrRd0 | PMtrRd1 | PMtrRd2 | PMtrChk | PMtrAct => negb (m_flg (r_mtr (rg b))) && (l_mode b =? m)
  | _ => false
  end.
(** the part of the command already copied is that of the register, unless a new one came in *)
Definition rods_copy (b : box) : Prop :=
  m_flg (r_mtr (rg b)) = false ->
  match pc b with
  | PMtrRd1 => vx (l_cmd b) = vx (m_cmd (r_mtr (rg b)))
  | PMtrRd2 => vx (l_cmd b) = vx (m_cmd (r_mtr (rg b))) /\ vy (l_cmd b) = vy (m_cmd (r_mtr (rg b)))
  | PMtrChk | PMtrAct => l_cmd b = m_cmd (r_mtr (rg b))
  | _ => True
  end.
Definition mx_pending (t : mtrr) (b : box) : Prop :=
  r_mode (rg b) = 1 /\ mt_flg (r_mtr (rg b)) true = t /\ rods_copy b /\ (m_flg (r_mtr (rg b)) = true \/ mx_good (m_mode t) b = true).
Definition mx_mu m := mu 7 14 (mx_good m).
Definition mx_done (t : mtrr) (b : box) (e : senv) : Prop :=
  pc b = PMtrAct /\ l_mode b = m_mode t /\ l_cmd b = m_cmd t /\ m_lim (r_mtr (rg b)) = m_lim t.

Lemma rods_copy_step ld e b b' : rods_copy b -> bstep ld e b = Some b' -> rods_copy b'.
Proof.
  intros IH E. unfold rods_copy in *. step_cases b E; try (intros; exact I); cbn [vx vy vz].
  - intros _. reflexivity.
  - intros F. split; [apply IH; exact F|reflexivity].
  - intros F. destruct (IH F) as [A B]. destruct (m_cmd (r_mtr r)); cbn in *. congruence.
  - intros F. apply IH. reflexivity.
Qed.

Lemma mx_core ld m b e b' : r_mode (rg b) = 1 -> m_mode (r_mtr (rg b)) = m -> (m_flg (r_mtr (rg b)) = true \/ mx_good m b = true) ->
  bstep ld e b = Some b' ->
  (pc b = PMtrAct /\ l_mode b = m /\ m_flg (r_mtr (rg b)) = false) \/
  ((r_mode (rg b') = 1 /\ m_mode (r_mtr (rg b')) = m /\ (m_flg (r_mtr (rg b')) = true \/ mx_good m b' = true)) /\ (mx_mu m b' < mx_mu m b)%nat).
Proof.
  unfold mx_mu, mu, mx_good. intros A B C E. step_cases b E.
  all: try (destruct (m_flg (r_mtr r)) eqn:F; cbn [negb andb] in *; destruct C as [C|C]; try discriminate C).
  all: try (bfix; subst; rewrite ?Z.eqb_refl in *).
  all: serve_solve.
Qed.

Lemma step_mtr ld e b b' : bstep ld e b = Some b' -> mt_flg (r_mtr (rg b')) true = mt_flg (r_mtr (rg b)) true.
Proof. intros E. step_cases b E; reflexivity. Qed.

Lemma mx_serve_step ld t b e b' : mx_pending t b -> bstep ld e b = Some b' ->
  mx_done t b e \/ (mx_pending t b' /\ (mx_mu (m_mode t) b' < mx_mu (m_mode t) b)%nat).
Proof.
  intros [A [B [D F]]] E. assert (M : m_mode (r_mtr (rg b)) = m_mode t) by (rewrite <- B; reflexivity).
  destruct (mx_core ld (m_mode t) b e b' A M F E) as [[X [Y Z']]|[[X [Y Z']] W]].
  - left. unfold mx_done. split; [exact X|]. split; [exact Y|]. unfold rods_copy in D. specialize (D Z'). rewrite X in D. rewrite D, <- B. split; reflexivity.
  - right. split; [|exact W]. split; [exact X|]. split; [rewrite (step_mtr _ _ _ _ E); exact B|]. split; [|exact Z'].
    eapply rods_copy_step; eassumption.
Qed.

Lemma mx_serve_quiet ld t b v b' : (forall e, v <> Step e) -> avoids [1; 10; 11; 12] v -> mx_pending t b -> bexec ld b v = Some b' ->
  mx_pending t b' /\ (mx_mu (m_mode t) b' <= mx_mu (m_mode t) b)%nat.
Proof.
  intros N T [A [B [D F]]] E. destruct v as [z msg|i|e]; [| |exfalso; apply (N e); reflexivity].
  - rx_subst E b'. cbn [avoids] in T. assert (T1 : addr msg <> 1) by av T. assert (T2 : addr msg <> 10) by av T.
    assert (T3 : addr msg <> 11) by av T. assert (T4 : addr msg <> 12) by av T.
    unfold mx_pending, mx_mu, mu, mx_good, rods_copy in *. bcbn. rewrite (recv_mtr z msg (rg b) T2 T3 T4), (recv_rmode z msg (rg b) T1).
    split; [repeat split; assumption|apply Nat.le_refl].
  - apply fail_rod_wheel in E. destruct E as [E1 [E2 [E3 [E4 _]]]].
    unfold mx_pending, mx_mu, mu, mx_good, rods_copy in *. rewrite E1, E2, E3, E4. split; [repeat split; assumption|apply Nat.le_refl].
Qed.

Theorem rod_command_executed ld b l b' :
  r_mode (rg b) = 1 -> m_flg (r_mtr (rg b)) = true -> Forall (avoids [1; 10; 11; 12]) l -> (44 <= n_steps l)%nat -> brun ld b l = Some b' ->
  does ld b l (fun e b1 => Some (mtr_actuate ld (m_mode (r_mtr (rg b))) (m_cmd (r_mtr (rg b))) (m_lim (r_mtr (rg b))) (dv b1))).
Proof.
  intros A F T N R.
  assert (TT : mt_flg (r_mtr (rg b)) true = r_mtr (rg b)) by (destruct (r_mtr (rg b)); cbn in *; subst; reflexivity).
  destruct (serve ld (mx_pending (r_mtr (rg b))) (mx_mu (m_mode (r_mtr (rg b)))) (mx_done (r_mtr (rg b)))
     (avoids [1; 10; 11; 12]) (mx_serve_quiet ld _) (mx_serve_step ld _))
    with (l := l) (b := b) (b' := b') as [la [e [lb [b1 [X [Y [D1 [D2 [D3 D4]]]]]]]]]; try assumption.
  { intros g _. apply mu_pos; [lia|]. unfold mx_good. destruct (pc g); cbn; intros; lia || discriminate. }
  { repeat split; auto. unfold rods_copy. rewrite F. discriminate. }
  { unfold mx_mu, mu, mx_good. rewrite F. destruct (pc b); cbn; lia. }
  exists la, e, lb, b1. eexists. split; [exact X|]. split; [exact Y|]. unfold bstep. rewrite D1, D2, D3, D4. split; reflexivity.
Qed.

(** ** No torn command is ever carried out *)

Theorem rods_change ld b0 l b e b' : in_rods (pc b0) = false -> brun ld b0 l = Some b -> bstep ld e b = Some b' -> rod (dv b') <> rod (dv b) ->
  (exists l1 l2 b1 m, l = l1 ++ l2 /\ brun ld b0 l1 = Some b1 /\ dv b' = mtr_actuate ld m (m_cmd (r_mtr (rg b1))) (m_lim (r_mtr (rg b))) (dv b)) \/
  dv b' = exec_reset e (l_tab b) (dv b) \/ dv b' = exec_disable e (l_tab b) (dv b).
Proof.
  intros P R E D. pose proof (rods_whole_run ld b0 l b P R) as W. unfold rods_whole in W.
  step_cases b E; try (exfalso; apply D; reflexivity).
  - exfalso. apply D. destruct (imu_keeps e (r_imu r) h) as [_ [K _]]. exact K.
  - left. destruct W as [l1 [l2 [b1 [X [Y Z']]]]]. exists l1, l2, b1, lm. rewrite Z'. auto.
  - exfalso. apply D. match goal with H : rwa_actuate _ _ _ _ = Some _ |- _ => apply rwa_actuate_rest in H; destruct H as [[_ [K _]] _] end. exact K.
  - right. left. reflexivity.
  - right. right. reflexivity.
Qed.

Theorem wheels_change ld b0 l b e b' : in_wheels (pc b0) = false -> brun ld b0 l = Some b -> bstep ld e b = Some b' ->
  (wcw (dv b') <> wcw (dv b) \/ wccw (dv b') <> wccw (dv b)) ->
  (exists m, rwa_actuate e m (w_cmd (r_rwa (rg b))) (dv b) = Some (dv b')) \/
  dv b' = exec_reset e (l_tab b) (dv b) \/ dv b' = exec_disable e (l_tab b) (dv b).
Proof.
  intros P R E D. pose proof (wheels_whole_run ld b0 l b P R) as W. unfold wheels_whole in W.
  step_cases b E; try (exfalso; destruct D as [D|D]; apply D; reflexivity).
  - exfalso. destruct (imu_keeps e (r_imu r) h) as [_ [_ [K1 [K2 _]]]]. destruct D as [D|D]; apply D; assumption.
  - exfalso. destruct (mtr_actuate_rest ld lm lc (m_lim (r_mtr r)) h) as [_ [K1 [K2 _]]]. destruct D as [D|D]; apply D; assumption.
  - left. exists lm. rewrite <- W by reflexivity. assumption.
  - right. left. reflexivity.
  - right. right. reflexivity.
Qed.

(** ** Age of the published device table *)

Definition tab_age (p : bpc) : nat := if (28 <? ord p)%nat then ord p - 28 else ord p + 9.
Definition tab_known ld (b0 : box) (l : list bev) (b : box) : Prop :=
  exists l1 l2 b1, l = l1 ++ l2 /\ brun ld b0 l1 = Some b1 /\ (n_steps l2 <= tab_age (pc b))%nat /\ h_tab (r_hav (rg b)) = table_of (fn (dv b1)).

Lemma n_steps_app l1 l2 : n_steps (l1 ++ l2) = (n_steps l1 + n_steps l2)%nat.
Proof. unfold n_steps. rewrite filter_app, app_length. reflexivity. Qed.

Lemma tab_known_run ld b0 l b : pc b0 = PHavt -> brun ld b0 l = Some b -> (0 < n_steps l)%nat -> tab_known ld b0 l b.
Proof.
  intros P. revert b.
  assert (G : forall b, brun ld b0 l = Some b -> (n_steps l = 0%nat /\ pc b = PHavt) \/ tab_known ld b0 l b).
  { induction l as [|v l IH] using rev_ind; intros b R.
    - cbn in R. injection R as <-. left. auto.
    - destruct (brun_app_inv _ _ _ _ _ R) as [b1 [R1 R2]]. specialize (IH _ R1). cbn [brun] in R2.
      destruct (bexec ld b1 v) as [b2|] eqn:E; [|discriminate R2]. cbn in R2. injection R2 as <-.
      assert (ST : forall e, v = Step e -> pc b1 = PHavt -> tab_known ld b0 (l ++ [v]) b2).
      { intros e -> PH. exists l, [Step e], b1. split; [reflexivity|]. split; [exact R1|]. cbn [bexec] in E. unfold bstep in E. rewrite PH in E. injection E as <-.
        split; [cbn; lia|reflexivity]. }
      destruct v as [z m|i|e].
      + rx_subst E b2. destruct IH as [[N H]|[l1 [l2 [bm [A [B [C D]]]]]]].
        * left. rewrite n_steps_app. cbn. split; [lia|exact H].
        * right. exists l1, (l2 ++ [Rx z m]), bm. subst l. rewrite app_assoc. split; [reflexivity|]. split; [exact B|]. rewrite n_steps_app. cbn [n_steps filter length].
          bcbn. destruct (recv_readings z m (rg b1)) as [_ [_ [_ [_ [_ [_ [_ [_ Q]]]]]]]]. rewrite Q. split; [lia|exact D].
      + apply fail_rod_wheel in E. destruct E as [E1 [E2 _]]. destruct IH as [[N H]|[l1 [l2 [bm [A [B [C D]]]]]]].
        * left. rewrite n_steps_app. cbn. split; [lia|congruence].
        * right. exists l1, (l2 ++ [Fail i]), bm. subst l. rewrite app_assoc. split; [reflexivity|]. split; [exact B|]. rewrite n_steps_app. cbn [n_steps filter length].
          rewrite E1, E2. split; [lia|exact D].
      + right. destruct (Nat.eq_dec (ord (pc b1)) 28) as [H28|H28].
        * apply (ST e eq_refl). destruct (pc b1); discriminate || reflexivity.
        * destruct IH as [[N H]|[l1 [l2 [bm [A [B [C D]]]]]]]; [rewrite H in H28; exfalso; apply H28; reflexivity|].
          exists l1, (l2 ++ [Step e]), bm. subst l. rewrite app_assoc. split; [reflexivity|]. split; [exact B|]. rewrite n_steps_app. cbn [n_steps filter length].
          clear ST R R1. cbn [bexec] in E. unfold tab_age in *. step_cases b1 E; try (exfalso; apply H28; reflexivity); cbn [ord Nat.ltb Nat.leb] in *; (split; [cbn in *; lia|exact D]). }
  intros b R N. destruct (G b R) as [[A _]|H]; [lia|exact H].
Qed.

Theorem table_age ld b0 l b z : pc b0 = PHavt -> brun ld b0 l = Some b -> (0 < n_steps l)%nat ->
  exists l1 l2 b1, l = l1 ++ l2 /\ brun ld b0 l1 = Some b1 /\ (n_steps l2 <= 37)%nat /\
    forall k, (k < n_dev)%nat -> o_dev (monitor z (answers (rg b))) k = fn (dv b1) k.
Proof.
  intros P R N. destruct (tab_known_run ld b0 l b P R N) as [l1 [l2 [b1 [A [B [C D]]]]]]. exists l1, l2, b1. split; [exact A|]. split; [exact B|]. split.
  - unfold tab_age in C. destruct (pc b); cbn in C; lia.
  - intros k Hk. rewrite table_readback; rewrite D; [apply table_of_bit; exact Hk|apply table_of_range].
Qed.

(** ** Wheel readings are refreshed while commands come in *)

Definition rd_good (b : box) : bool := (17 <=? ord (pc b))%nat && (ord (pc b) <? 24)%nat.
Definition rd_pending (b : box) : Prop := r_mode (rg b) = 1 /\ (w_flg (r_rwa (rg b)) = true \/ rd_good b = true).
Definition rd_mu := mu 16 24 rd_good.

Lemma rd_serve_step ld b e b' : rd_pending b -> bstep ld e b = Some b' -> pc b = PRwaPub \/ (rd_pending b' /\ (rd_mu b' < rd_mu b)%nat).
Proof.
  unfold rd_pending, rd_mu, mu, rd_good. intros [A C] E. step_cases b E.
  all: try (destruct (w_flg (r_rwa r)) eqn:F; cbn [negb andb] in *; destruct C as [C|C]; try discriminate C).
  all: cbn [ord Nat.leb Nat.ltb andb] in *; serve_solve.
Qed.

Lemma rd_serve_quiet ld b v b' : (forall e, v <> Step e) -> avoids [1] v -> rd_pending b -> bexec ld b v = Some b' ->
  rd_pending b' /\ (rd_mu b' <= rd_mu b)%nat.
Proof.
  intros N T [A C] E. destruct v as [z m|i|e]; [| |exfalso; apply (N e); reflexivity].
  - rx_subst E b'. cbn [avoids] in T. assert (T1 : addr m <> 1) by av T. unfold rd_pending, rd_mu, mu, rd_good in *. bcbn.
    rewrite (recv_rmode z m (rg b) T1). split; [split; [exact A|]|apply Nat.le_refl]. destruct C as [C|C]; [left; apply recv_rwa_flag; exact C|right; exact C].
  - apply fail_rod_wheel in E. destruct E as [E1 [E2 _]]. unfold rd_pending, rd_mu, mu, rd_good in *. rewrite E1, E2. split; [split; assumption|apply Nat.le_refl].
Qed.

Theorem wheel_readings_refreshed ld b l b' :
  r_mode (rg b) = 1 -> w_flg (r_rwa (rg b)) = true -> Forall (avoids [1]) l -> (45 <= n_steps l)%nat -> brun ld b l = Some b' ->
  exists l1 e l2 b1 b2, l = l1 ++ Step e :: l2 /\ brun ld b l1 = Some b1 /\ bstep ld e b1 = Some b2 /\
    w_spd (r_rwa (rg b2)) = spd_rd (dv b1) /\ w_rmp (r_rwa (rg b2)) = rmp_rd (dv b1).
Proof.
  intros A F T N R.
  destruct (serve ld rd_pending rd_mu (fun b _ => pc b = PRwaPub) (avoids [1]) (rd_serve_quiet ld) (rd_serve_step ld))
    with (l := l) (b := b) (b' := b') as [la [e [lb [b1 [X [Y D1]]]]]]; try assumption.
  { intros g _. apply mu_pos; [lia|]. unfold rd_good. destruct (pc g); cbn; intros; lia || discriminate. }
  { split; auto. }
  { unfold rd_mu, mu, rd_good. destruct (pc b); cbn; lia. }
  exists la, e, lb, b1. eexists. split; [exact X|]. split; [exact Y|]. unfold bstep. rewrite D1. split; [reflexivity|]. split; reflexivity.
Qed.

(** ** Magnetometer calibration *)

Theorem calibration_done e i h : fn h 2 = true -> i_m2 i = 1 -> cal2 (imu_update e i h) = S (cal2 h).
Proof.
  intros F M. unfold imu_update.
  destruct (gyr_keeps e (i_gflt i) (i_des i) (i_tflt i) (i_pwm i) h) as [K [_ [_ [_ [_ [_ [_ [_ [_ C]]]]]]]]].
  remember (gyr_update e (i_gflt i) (i_des i) (i_tflt i) (i_pwm i) h) as h1. clear Heqh1.
  assert (A : fn (mag1_update e (i_mflt i) h1) = fn h1 /\ cal2 (mag1_update e (i_mflt i) h1) = cal2 h1).
  { unfold mag1_update. destruct (negb (fn h1 1)); [auto|]. destruct (e_b1 e); auto. }
  destruct A as [A1 A2]. unfold mag2_update. rewrite A1, K, F, M. cbn [negb]. change (1 =? 1) with true. cbv iota zeta.
  destruct (e_b2 e); cbn [cal2 hw_b2]; rewrite A2, C; reflexivity.
Qed.

(** ** The flight computer's tables *)

Lemma in_calls_reset sm a t : In (SetReset t) (controller_calls sm a) <-> any_dev (a_rst a) = true /\ t = or_table (a_rst a) 0.
Proof.
  unfold controller_calls. cbv zeta. rewrite !in_app_iff. split.
  - intros H. repeat (destruct H as [H|H]);
      repeat match type of H with context [if ?c then _ else _] => destruct c eqn:?; cbn [In] in H end; cbn [In] in H;
      repeat match type of H with _ \/ _ => destruct H as [H|H]; try discriminate H end; try discriminate H; try contradiction.
    injection H as <-. auto.
  - intros [A ->]. rewrite A. do 5 right. left. left. reflexivity.
Qed.

Lemma in_calls_disable sm a t :
  In (SetDisable t) (controller_calls sm a) <-> any_dev (a_dis a) = true /\ t = or_table (a_dis a) (or_table (a_rst a) 0).
Proof.
  unfold controller_calls. cbv zeta. rewrite !in_app_iff. split.
  - intros H. repeat (destruct H as [H|H]);
      repeat match type of H with context [if ?c then _ else _] => destruct c eqn:?; cbn [In] in H end; cbn [In] in H;
      repeat match type of H with _ \/ _ => destruct H as [H|H]; try discriminate H end; try discriminate H; try contradiction.
    injection H as <-. auto.
  - intros [A ->]. rewrite A. do 6 right. left. reflexivity.
Qed.

Lemma any_dev_in f : any_dev f = true <-> exists k, (k < n_dev)%nat /\ f k = true.
Proof.
  unfold any_dev. rewrite existsb_exists. split; intros [k [A B]]; exists k; (split; [|exact B]).
  - apply in_seq in A. lia.
  - apply in_seq. lia.
Qed.

Lemma reset_bits sm a t k : In (SetReset t) (controller_calls sm a) -> (k < n_dev)%nat -> Z.testbit t (Z.of_nat k) = a_rst a k.
Proof.
  intros H K. apply in_calls_reset in H. destruct H as [_ ->]. rewrite or_table_bit by lia. rewrite Z.bits_0, Nat2Z.id. cbn [orb].
  destruct (Z.of_nat k <? Z.of_nat n_dev) eqn:E; [reflexivity|lia].
Qed.

Lemma disable_bits sm a t k : In (SetDisable t) (controller_calls sm a) -> (k < n_dev)%nat ->
  Z.testbit t (Z.of_nat k) = a_rst a k || a_dis a k.
Proof.
  intros H K. apply in_calls_disable in H. destruct H as [_ ->]. rewrite !or_table_bit by lia. rewrite Z.bits_0, Nat2Z.id. cbn [orb].
  destruct (Z.of_nat k <? Z.of_nat n_dev) eqn:E; [reflexivity|lia].
Qed.

Lemma calls_table_range sm a t : In (SetReset t) (controller_calls sm a) \/ In (SetDisable t) (controller_calls sm a) -> 0 <= t < 2 ^ 19.
Proof.
  assert (A : 0 <= or_table (a_rst a) 0 < 2 ^ 19) by (apply or_table_range; lia).
  intros [H|H]; [apply in_calls_reset in H|apply in_calls_disable in H]; destruct H as [_ ->]; [exact A|apply or_table_range; exact A].
Qed.

(** ** The commander *)

Lemma commander_state pt pm a : a_state (commander pt pm a) = a_state a.
Proof. unfold commander. repeat match goal with |- context [if ?c then _ else _] => destruct c end; reflexivity. Qed.


Lemma actuator_calls_of sm a :
  actuator_calls (controller_calls sm a) =
  (if a_wmode a =? 1 then [SetRwa 1 (a_wspd a)] else if a_wmode a =? 2 then [SetRwa 2 (a_wtrq a)]
   else if a_wmode a =? 0 then [SetRwa 0 v0] else []) ++ [SetMtrMode (a_mmode a); SetMtrCmd (a_mcmd a)].
Proof.
  unfold controller_calls, actuator_calls. cbv zeta. rewrite !filter_app.
  destruct (sm =? 1), (any_dev (a_rst a)), (any_dev (a_dis a)); cbn [filter app]; rewrite ?app_nil_r;
    repeat match goal with |- context [if a_wmode a =? ?k then _ else _] => destruct (a_wmode a =? k) end; reflexivity.
Qed.


Lemma commander_actuation sm pt pm a : 2 <= a_state a <= 8 ->
  actuator_calls (controller_calls sm (commander pt pm a)) = state_actuation (a_state a) pt pm.
Proof.
  intros H. rewrite actuator_calls_of. unfold commander, state_actuation.
  assert (C : a_state a = 2 \/ a_state a = 3 \/ a_state a = 4 \/ a_state a = 5 \/ a_state a = 6 \/ a_state a = 7 \/ a_state a = 8) by lia.
  destruct C as [C|[C|[C|[C|[C|[C|C]]]]]]; rewrite C; reflexivity.
Qed.

Lemma commander_mode sm pt pm a : hd_error (controller_calls sm (commander pt pm a)) = Some (SetMode (if a_state a =? st_startup then 0 else 1)).
Proof. unfold controller_calls. cbn [app hd_error]. rewrite commander_state. reflexivity. Qed.
