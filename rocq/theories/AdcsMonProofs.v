(** Proofs about readings: filters keep them in range, and what the flight computer reads back. *)
From Verif Require Import Base AdcsModel AdcsSpec AdcsConvProofs AdcsRecvProofs AdcsActProofs AdcsRunProofs AdcsServeProofs AdcsTableProofs.
From Coq Require Import QArith Qabs Lqa.
Local Open Scope Z_scope.

(** ** The sun vector *)

Definition sun_ok (b : box) : Prop := s_mode (r_ssa (rg b)) = 2 -> s_vec (r_ssa (rg b)) <> None.

Lemma recv_smode_cases z m r : s_mode (r_ssa (recv z m r)) = s_mode (r_ssa r) \/ (addr m = 14 /\ s_mode (r_ssa (recv z m r)) = nth 1 m 0).
Proof.
  destruct (Z.eq_dec (addr m) 14) as [E|N]; [|left; apply recv_smode; exact N].
  destruct m as [|a l]; [left; reflexivity|]. cbn [addr] in E. subst a. change (recv z (14 :: l) r) with (rx_ssa_mode l r).
  unfold rx_ssa_mode. destruct l as [|b l]; [left; reflexivity|]. destruct (_ || _); [right; split; reflexivity|left; reflexivity].
Qed.

Lemma sun_ok_inv ld b v b' : asks_sun v -> sun_ok b -> bexec ld b v = Some b' -> sun_ok b'.
Proof.
  intros T H E. destruct v as [z m|i|e].
  - rx_subst E b'. unfold sun_ok in *. bcbn. destruct (recv_readings z m (rg b)) as [_ [_ [Q _]]]. rewrite Q.
    destruct (recv_smode_cases z m (rg b)) as [X|[X Y]]; [rewrite X; exact H|]. rewrite Y. intros C. exfalso. apply (T X). exact C.
  - apply fail_rod_wheel in E. destruct E as [F1 _]. unfold sun_ok. rewrite F1. exact H.
  - cbn [bexec] in E. unfold sun_ok in *. step_cases b E; try exact H.
    cbn. match goal with X : sun_calc _ _ = _ |- _ => unfold sun_calc in X; destruct (length (ssa_lit h) <? 4)%nat; injection X as <- <- end; discriminate.
Qed.

Theorem sun_vector_ready ld f l b : Forall asks_sun l -> brun ld (box0 f) l = Some b -> s_mode (r_ssa (rg b)) = 2 -> s_vec (r_ssa (rg b)) <> None.
Proof. intros T R. apply (brun_inv ld sun_ok asks_sun (sun_ok_inv ld) l (box0 f) b T); [unfold sun_ok; cbn; discriminate|exact R]. Qed.

(** once complete, mode and vector stay until the next request *)
Definition sun_is (v : vec) (b : box) : Prop := s_mode (r_ssa (rg b)) = 2 /\ s_vec (r_ssa (rg b)) = Some v /\ pc b <> PSsaCalc.

Lemma sun_is_inv ld w b v b' : avoids [14] v -> sun_is w b -> bexec ld b v = Some b' -> sun_is w b'.
Proof.
  intros T [A [B C]] E. destruct v as [z m|i|e].
  - rx_subst E b'. cbn [avoids] in T. assert (T1 : addr m <> 14) by av T. unfold sun_is. bcbn.
    destruct (recv_readings z m (rg b)) as [_ [_ [Q _]]]. rewrite Q, (recv_smode z m (rg b) T1). auto.
  - apply fail_rod_wheel in E. destruct E as [F1 [F2 _]]. unfold sun_is. rewrite F1, F2. auto.
  - cbn [bexec] in E. unfold sun_is in *. step_cases b E; try (repeat split; try assumption; discriminate); try congruence.
    bfix. congruence.
Qed.

(** ** The gyroscope's heater *)

Theorem heater_rule e i h :
  heat (imu_update e i h) =
  if negb (fn h 18) then 0 else if negb (fn h 0) then 0 else
  match e_gyr e with
  | None => heat h
  | Some _ => if Qlt_le_dec (tmp_rd (imu_update e i h)) (i_des i) then i_pwm i * 128 else 0
  end.
Proof.
  assert (TT : tmp_rd (imu_update e i h) = tmp_rd (gyr_update e (i_gflt i) (i_des i) (i_tflt i) (i_pwm i) h)).
  { unfold imu_update. remember (gyr_update e (i_gflt i) (i_des i) (i_tflt i) (i_pwm i) h) as h1. clear Heqh1.
    unfold mag2_update. destruct (negb (fn _ 2)); cbv zeta; [|destruct (i_m2 i =? 1), (e_b2 e); cbn [tmp_rd hw_b2]];
    (unfold mag1_update; destruct (negb (fn h1 1)); [reflexivity|destruct (e_b1 e); reflexivity]). }
  rewrite TT, imu_heat. unfold gyr_update. cbv zeta. destruct (fn h 0) eqn:F0.
  - destruct (e_gyr e) as [[t w]|]; cbn [fn hw_gyr]; destruct (fn h 18) eqn:F18; cbn [negb]; rewrite ?F0; cbn [negb]; try reflexivity.
    match goal with |- context [if ?c then hw_heat _ _ else _] => destruct c as [D|D] end; cbn [heat tmp_rd hw_heat hw_gyr] in D |- *;
      match goal with |- context [if ?c then _ else _] => destruct c as [D'|D'] end; try reflexivity; exfalso; revert D'; apply Qle_not_lt || apply Qlt_not_le; exact D.
  - destruct (fn h 18); cbn [negb]; rewrite ?F0; reflexivity.
Qed.

Definition heating (q : Z) (b : box) : Prop :=
  fn (dv b) 0 = true /\ fn (dv b) 18 = true /\ heat (dv b) = q /\ h_rflg (r_hav (rg b)) = false /\ h_dflg (r_hav (rg b)) = false /\
  (30 <=? ord (pc b))%nat && negb (ord (pc b) =? 33)%nat = false.

Lemma heating_inv ld q b v b' : no_gyr v -> heating q b -> bexec ld b v = Some b' -> heating q b'.
Proof.
  intros T [A [B [C [D [D' P]]]]] E. destruct v as [z m|i|e].
  - rx_subst E b'. cbn [no_gyr] in T. assert (T2 : addr m <> 28) by av T. assert (T3 : addr m <> 29) by av T.
    destruct (recv_rst z m (rg b) T2) as [_ Q3]. destruct (recv_dis z m (rg b) T3) as [_ Q4]. unfold heating. bcbn. rewrite Q3, Q4. repeat split; assumption.
  - cbn [no_gyr] in T. cbn [bexec] in E. destruct (bus_dev i) eqn:BD; injection E as <-; unfold heating; bcbn; cbn [fn hw_fn heat]; repeat split; try assumption.
    + rewrite fup_other by congruence. exact A.
    + rewrite fup_other by (intros <-; discriminate BD). exact B.
  - cbn [bexec no_gyr] in *. unfold heating in *. step_cases b E; try discriminate P; try congruence.
    all: try (repeat split; (assumption || reflexivity)).
    + destruct (imu_keeps e (r_imu r) h) as [K1 _]. rewrite K1, heater_rule, A, B, T. cbn [negb]. repeat split; assumption.
    + destruct (mtr_actuate_rest ld lm lc (m_lim (r_mtr r)) h) as [K1 [_ [_ [K2 _]]]]. rewrite K1, K2. repeat split; assumption.
    + match goal with H : rwa_actuate _ _ _ _ = Some _ |- _ => apply rwa_actuate_rest in H; destruct H as [[K1 [_ [K2 _]]] _] end.
      rewrite K1, K2. repeat split; assumption.
Qed.

(** ** Readings of the inertial sensors stay in range *)


Definition imu_in (h : hw) : Prop :=
  in_range3 (- max_mag1) max_mag1 (b1_rd h) /\ in_range3 (- max_mag2) max_mag2 (b2_rd h) /\ in_range3 (- max_omega) max_omega (gyr_rd h) /\
  in_range (-103) 153 (tmp_rd h).
Definition flt_in (i : imur) : Prop := in_range 0 1 (i_mflt i) /\ in_range 0 1 (i_gflt i) /\ in_range 0 1 (i_tflt i).

Lemma filt_range mn mx f o n : in_range 0 1 f -> in_range mn mx o -> in_range mn mx n -> in_range mn mx (o + (n - o) * f)%Q.
Proof. unfold in_range. intros [F1 F2] [O1 O2] [N1 N2]. split; nra. Qed.
Lemma filt3_range mn mx f o n : in_range 0 1 f -> in_range3 mn mx o -> in_range3 mn mx n -> in_range3 mn mx (filt f o n).
Proof.
  intros F [A [B C]] [A' [B' C']]. unfold in_range3, filt, vmap2. cbn [vx vy vz]. split; [|split]; apply filt_range; assumption.
Qed.
Lemma opp_range mx x : in_range (- mx) mx x -> in_range (- mx) mx (- x).
Proof. unfold in_range. lra. Qed.
Lemma fps3_range mx t : (- mx < mx)%Q -> short3 t -> in_range3 (- mx) mx (fps3 t mx).
Proof.
  intros M. destruct t as [[a b] c]. unfold short3, short, in_range3, in_range, fps3. cbn [vx vy vz]. intros [A [B C]].
  split; [|split]; apply fps16_range; assumption.
Qed.

Lemma imu_update_in e i h : env_ok e -> flt_in i -> imu_in h -> imu_in (imu_update e i h).
Proof.
  intros [E1 [E2 E3]] [F1 [F2 F3]] [H1 [H2 [H3 H4]]]. unfold imu_update.
  set (h1 := gyr_update e (i_gflt i) (i_des i) (i_tflt i) (i_pwm i) h).
  assert (G : in_range3 (- max_omega) max_omega (gyr_rd h1) /\ in_range (-103) 153 (tmp_rd h1) /\ b1_rd h1 = b1_rd h /\ b2_rd h1 = b2_rd h).
  { destruct (gyr_keeps e (i_gflt i) (i_des i) (i_tflt i) (i_pwm i) h) as [_ [_ [_ [_ [_ [_ [_ [K1 [K2 _]]]]]]]]]. fold h1 in K1, K2.
    split; [|split; [|split; assumption]]; subst h1; unfold gyr_update; cbv zeta; destruct (fn h 0) eqn:FN.
    - destruct (e_gyr e) as [[t w]|] eqn:EG; cbn [fn hw_gyr].
      + assert (R : in_range3 (- max_omega) max_omega (filt (i_gflt i) (gyr_rd h) (gyr_to_body (fps3 w max_omega)))).
        { destruct (E1 t w eq_refl) as [_ W]. apply filt3_range; [exact F2|exact H3|].
          pose proof (fps3_range max_omega w ltac:(reflexivity) W) as [A [B C]]. unfold gyr_to_body, in_range3. cbn [vx vy vz].
          split; [exact A|split; [apply opp_range; exact C|exact B]]. }
        destruct (negb (fn h 18)), (negb (fn h 0)); try exact R. match goal with |- context [if ?c then _ else _] => destruct c end; exact R.
      + destruct (negb (fn h 18)), (negb (fn h 0)); exact H3.
    - destruct (negb (fn h 18)); rewrite ?FN; exact H3.
    - destruct (e_gyr e) as [[t w]|] eqn:EG; cbn [fn hw_gyr].
      + assert (R : in_range (-103) 153 (tmp_rd h + (fps16 t (-103) 153 - tmp_rd h) * i_tflt i)).
        { destruct (E1 t w eq_refl) as [W _]. apply filt_range; [exact F3|exact H4|]. apply fps16_range; [reflexivity|exact W]. }
        destruct (negb (fn h 18)), (negb (fn h 0)); try exact R. match goal with |- context [if ?c then _ else _] => destruct c end; exact R.
      + destruct (negb (fn h 18)), (negb (fn h 0)); exact H4.
    - destruct (negb (fn h 18)); rewrite ?FN; exact H4. }
  destruct G as [G1 [G2 [G3 G4]]].
  assert (M1 : imu_in (mag1_update e (i_mflt i) h1)).
  { unfold mag1_update, imu_in. destruct (negb (fn h1 1)); [rewrite G3, G4; auto|]. destruct (e_b1 e) as [w|] eqn:EB; [|rewrite G3, G4; auto].
    cbn [b1_rd b2_rd gyr_rd tmp_rd hw_b1]. rewrite G3, G4. split; [|auto].
    apply filt3_range; [exact F1|exact H1|]. pose proof (fps3_range max_mag1 w ltac:(reflexivity) (E2 w eq_refl)) as [A [B C]].
    unfold mag1_to_body, in_range3. cbn [vx vy vz]. split; [exact A|split; apply opp_range; assumption]. }
  remember (mag1_update e (i_mflt i) h1) as h2. clear - M1 E3 F1. destruct M1 as [A [B [C D]]].
  unfold mag2_update, imu_in. destruct (negb (fn h2 2)); [auto|]. cbv zeta.
  destruct (e_b2 e) as [w|] eqn:EB; [|destruct (i_m2 i =? 1); auto].
  assert (R : in_range3 (- max_mag2) max_mag2 (filt (i_mflt i) (b2_rd h2) (mag2_to_body (fps3 w max_mag2)))).
  { apply filt3_range; [exact F1|exact B|]. pose proof (fps3_range max_mag2 w ltac:(reflexivity) (E3 w eq_refl)) as [X [Y Z']].
    unfold mag2_to_body, in_range3. cbn [vx vy vz]. split; [exact Y|split; [exact Z'|apply opp_range; exact X]]. }
  destruct (i_m2 i =? 1); cbn [b1_rd b2_rd gyr_rd tmp_rd hw_b2]; auto.
Qed.

Lemma imu_in_other h h' : b1_rd h' = b1_rd h -> b2_rd h' = b2_rd h -> gyr_rd h' = gyr_rd h -> tmp_rd h' = tmp_rd h -> imu_in h -> imu_in h'.
Proof. unfold imu_in. intros -> -> -> ->. auto. Qed.

Lemma fold_rd (op : hw -> nat -> hw) (sel : nat -> bool) l h :
  (forall h i, b1_rd (op h i) = b1_rd h /\ b2_rd (op h i) = b2_rd h /\ gyr_rd (op h i) = gyr_rd h /\ tmp_rd (op h i) = tmp_rd h) ->
  let h' := fold_left (fun h i => if sel i then op h i else h) l h in
  b1_rd h' = b1_rd h /\ b2_rd h' = b2_rd h /\ gyr_rd h' = gyr_rd h /\ tmp_rd h' = tmp_rd h.
Proof.
  intros H. cbv zeta. revert h. induction l as [|i l IH]; intros h; [auto|]. cbn [fold_left]. destruct (IH (if sel i then op h i else h)) as [A [B [C D]]].
  rewrite A, B, C, D. destruct (sel i); [apply H|auto].
Qed.

Lemma exec_rd e t h : let h' := exec_reset e t h in let h'' := exec_disable e t h in
  (b1_rd h' = b1_rd h /\ b2_rd h' = b2_rd h /\ gyr_rd h' = gyr_rd h /\ tmp_rd h' = tmp_rd h) /\
  (b1_rd h'' = b1_rd h /\ b2_rd h'' = b2_rd h /\ gyr_rd h'' = gyr_rd h /\ tmp_rd h'' = tmp_rd h).
Proof.
  cbv zeta. split; [apply (fold_rd (dev_reset e) (fun i => Z.testbit t (Z.of_nat i)))|apply (fold_rd (dev_disable e) (fun i => Z.testbit t (Z.of_nat i)))];
    intros g i; unfold dev_reset, dev_disable, pot_write; destruct (is_rod i), (is_wheel i), (Nat.eqb i 18), (Nat.eqb i 6), (e_reset e i), (e_pot e); repeat split.
Qed.

Definition imu_reg_in (i : imur) : Prop :=
  in_range3 (- max_mag1) max_mag1 (i_b1 i) /\ in_range3 (- max_mag2) max_mag2 (i_b2 i) /\ in_range3 (- max_omega) max_omega (i_gyr i) /\
  in_range (-103) 153 (i_tmp i).

Definition imu_inv (b : box) : Prop := imu_in (dv b) /\ flt_in (r_imu (rg b)) /\ imu_reg_in (r_imu (rg b)).

Lemma byte_flt b : 0 <= b < 256 -> in_range 0 1 (fp8 b 0 1).
Proof. intros H. apply fp8_range; [reflexivity|lia]. Qed.

Lemma recv_flt z m r : 0 <= z < 256 -> bytes m -> flt_in (r_imu r) -> flt_in (r_imu (recv z m r)).
Proof.
  intros Hz Hm [F1 [F2 F3]]. destruct m as [|a l]; [repeat split; apply F1 || apply F2 || apply F3|].
  assert (Hl : bytes l) by (inversion Hm; assumption). clear Hm.
  assert (B0 : forall x t, l = x :: t -> in_range 0 1 (fp8 x 0 1)) by (intros x t ->; inversion Hl; apply byte_flt; assumption).
  assert (B1 : forall x y t, l = x :: y :: t -> in_range 0 1 (fp8 y 0 1)).
  { intros x y t ->. inversion Hl as [|? ? _ Hl']; inversion Hl'; apply byte_flt; assumption. }
  assert (B2 : forall x y w t, l = x :: y :: w :: t -> in_range 0 1 (fp8 w 0 1)).
  { intros x y w t ->. inversion Hl as [|? ? _ Hl']; inversion Hl' as [|? ? _ Hl'']; inversion Hl''; apply byte_flt; assumption. }
  cbn [recv].
  repeat match goal with |- context [if a =? ?k then _ else _] => destruct (Z.eqb_spec a k) as [->|] end;
  unfold rx_mode, rx_ptr, rx_rwa_mode, rx_rwa_cmd, rx_sflt, rx_rflt, rx_mtr_mode, rx_mtr_cmd, rx_mtr_lim, rx_ssa_mode, rx_ssa_flt,
         rx_m1, rx_m2, rx_mflt, rx_gflt, rx_tflt, rx_pwm, rx_des, rx_rst, rx_dis.
  all: try (rx_cases; (repeat split; apply F1 || apply F2 || apply F3)).
  - destruct l as [|x [|y [|w t]]]; unfold flt_in; cbn [r_imu set_imu i_mflt i_gflt i_tflt im_mflt im_gflt im_tflt];
      (split; [first [exact F1|eapply B0; reflexivity]|split; [first [exact F2|eapply B1; reflexivity]|first [exact F3|eapply B2; reflexivity]]]).
  - destruct l as [|x [|y t]]; unfold flt_in; cbn [r_imu set_imu i_mflt i_gflt i_tflt im_mflt im_gflt im_tflt];
      (split; [first [exact F1|eapply B0; reflexivity]|split; [first [exact F2|eapply B0; reflexivity]|first [exact F3|eapply B1; reflexivity]]]).
  - destruct l as [|x t]; unfold flt_in; cbn [r_imu set_imu i_mflt i_gflt i_tflt im_mflt im_gflt im_tflt];
      (split; [exact F1|split; [exact F2|first [exact F3|eapply B0; reflexivity]]]).
Qed.

Lemma imu_inv_inv ld b v b' : real_ev v -> imu_inv b -> bexec ld b v = Some b' -> imu_inv b'.
Proof.
  intros T [A [B C]] E. destruct v as [z m|i|e].
  - rx_subst E b'. destruct T as [T1 T2]. unfold imu_inv. bcbn. split; [exact A|]. split; [apply recv_flt; assumption|].
    unfold imu_reg_in in *. destruct (recv_readings z m (rg b)) as [_ [_ [_ [_ [Q1 [Q2 [Q3 [Q4 _]]]]]]]]. rewrite Q1, Q2, Q3, Q4. exact C.
  - cbn [bexec] in E. destruct (bus_dev i); injection E as <-; (split; [exact A|split; [exact B|exact C]]).
  - cbn [bexec] in E. cbn [real_ev] in T. unfold imu_inv in *. step_cases b E; try (split; [exact A|split; [exact B|exact C]]).
    + split; [apply imu_update_in; assumption|split; assumption].
    + split; [exact A|split; [exact B|]]. unfold imu_reg_in. cbn. destruct A as [A1 [A2 [A3 A4]]]. destruct C as [_ [_ [_ C4]]]. auto.
    + split; [exact A|split; [exact B|]]. unfold imu_reg_in. cbn. destruct A as [A1 [A2 [A3 A4]]]. destruct C as [C1 [C2 [C3 _]]]. auto.
    + destruct (mtr_actuate_rest ld lm lc (m_lim (r_mtr r)) h) as [_ [_ [_ [_ [_ [K1 [K2 [K3 [K4 _]]]]]]]]].
      split; [apply (imu_in_other h); assumption|split; assumption].
    + match goal with H : rwa_actuate _ _ _ _ = Some _ |- _ => apply rwa_actuate_rest in H; destruct H as [[_ [_ [_ [K1 [K2 [K3 [K4 _]]]]]]] _] end.
      split; [apply (imu_in_other h); assumption|split; assumption].
    + destruct (exec_rd e lt h) as [[K1 [K2 [K3 K4]]] _]. split; [apply (imu_in_other h); assumption|split; assumption].
    + destruct (exec_rd e lt h) as [_ [K1 [K2 [K3 K4]]]]. split; [apply (imu_in_other h); assumption|split; assumption].
Qed.

Lemma box0_imu f ld e1 e2 l b : env_ok e1 -> env_ok e2 -> Forall real_ev l ->
  brun ld (box0 f) (Step e1 :: Step e2 :: l) = Some b -> imu_inv b.
Proof.
  intros E1 E2 T R.
  assert (A : imu_in (hw0 f)) by (repeat split; vm_compute; discriminate).
  assert (B : flt_in (r_imu regs0)) by (repeat split; vm_compute; discriminate).
  pose proof (imu_update_in e1 (r_imu regs0) (hw0 f) E1 B A) as A'.
  cbn [brun bexec obind] in R. unfold bstep at 1 in R. cbn [pc box0 obind rg dv] in R.
  unfold bstep at 1 in R. cbn [pc box0 obind rg dv b_dv b_rg] in R.
  eapply (brun_inv ld imu_inv real_ev (imu_inv_inv ld)); [exact T| |exact R].
  remember (imu_update e1 (r_imu regs0) (hw0 f)) as h1. clear Heqh1 R.
  unfold imu_inv, imu_reg_in. cbn. split; [exact A'|split; [exact B|]]. destruct A' as [A1 [A2 [A3 _]]].
  split; [exact A1|split; [exact A2|split; [exact A3|]]]. split; vm_compute; discriminate.
Qed.

(** ** Reading back *)

Lemma le16_join t : t mod 256 + 256 * (t / 256) = t.
Proof. lia. Qed.

Theorem imu_readback z r : imu_reg_in (r_imu r) ->
  exists l, answers r 21 = Some l /\
  let o := monitor z (answers r) in
  within_step3 65535 (- max_mag1) max_mag1 (i_b1 (r_imu r)) (o_b1 o) /\
  within_step3 65535 (- max_mag2) max_mag2 (i_b2 (r_imu r)) (o_b2 o) /\
  within_step3 65535 (- max_omega) max_omega (i_gyr (r_imu r)) (o_gyr o) /\
  within_step 65535 (-103) 153 (i_tmp (r_imu r)) (o_tmp o).
Proof.
  intros [A [B [C D]]].
  destruct (tx3_some _ _ _ (eq_refl : (- max_mag1 < max_mag1)%Q) A) as [a1 [a2 [a3 [A1 [A2 [A3 [A4 A5]]]]]]].
  destruct (tx3_some _ _ _ (eq_refl : (- max_mag2 < max_mag2)%Q) B) as [b1 [b2 [b3 [B1 [B2 [B3 [B4 B5]]]]]]].
  destruct (tx3_some _ _ _ (eq_refl : (- max_omega < max_omega)%Q) C) as [c1 [c2 [c3 [C1 [C2 [C3 [C4 C5]]]]]]].
  destruct (us_some _ _ _ (eq_refl : (-103 < 153)%Q) D) as [d [D1 [D2 D3]]].
  assert (E : answers r 21 = Some ((le16 a1 ++ le16 a2 ++ le16 a3) ++ (le16 b1 ++ le16 b2 ++ le16 b3) ++ (le16 c1 ++ le16 c2 ++ le16 c3) ++ le16 d)).
  { unfold answers, request. cbn [r_ptr set_rptr]. change (21 =? 0) with false. change (21 =? 8) with false. change (21 =? 14) with false.
    change (21 =? 15) with false. change (21 =? 17) with false. change (21 =? 21) with true. cbv iota.
    change (r_imu (set_rptr r 21)) with (r_imu r). rewrite A1, B1, C1. unfold tx16. rewrite D1. reflexivity. }
  eexists. split; [exact E|]. cbv zeta. unfold monitor. cbn [o_b1 o_b2 o_gyr o_tmp]. rewrite E.
  unfold dec3, at16, fill, le16. cbn [app firstn nth Nat.add]. rewrite !le16_join.
  split; [exact A5|split; [exact B5|split; [exact C5|exact D3]]].
Qed.

Lemma bits_val_bit l k : (k < length l)%nat -> Z.testbit (bits_val l) (Z.of_nat k) = nth k l false.
Proof.
  revert k. induction l as [|b l IH]; intros k H; cbn [length] in H; [lia|]. cbn [bits_val].
  destruct k as [|k]; cbn [nth].
  - change (Z.of_nat 0) with 0. rewrite Z.add_comm. destruct b; cbn [Z.b2z]; [apply Z.testbit_odd_0|rewrite Z.add_0_r; apply Z.testbit_even_0].
  - rewrite Nat2Z.inj_succ, Z.add_comm. destruct b; cbn [Z.b2z]; [rewrite Z.testbit_odd_succ by lia|rewrite Z.add_0_r, Z.testbit_even_succ by lia]; apply IH; lia.
Qed.

Lemma table_of_bit f k : (k < n_dev)%nat -> Z.testbit (table_of f) (Z.of_nat k) = f k.
Proof.
  intros H. unfold table_of. rewrite bits_val_bit by (rewrite map_length, seq_length; exact H).
  rewrite nth_indep with (d' := f 0%nat) by (rewrite map_length, seq_length; exact H). rewrite map_nth, seq_nth by exact H. reflexivity.
Qed.

Lemma table_of_range f : 0 <= table_of f < 2 ^ 19.
Proof. unfold table_of. pose proof (bits_val_range (map f (seq 0 n_dev))) as H. rewrite map_length, seq_length in H. exact H. Qed.

Lemma le32_join t : 0 <= t -> t mod 256 + 256 * (t / 256 mod 256) + 65536 * (t / 65536 mod 256 + 256 * (t / 16777216)) = t.
Proof. intros. lia. Qed.

Theorem table_readback z r k : 0 <= h_tab (r_hav r) -> o_dev (monitor z (answers r)) k = Z.testbit (h_tab (r_hav r)) (Z.of_nat k).
Proof.
  intros H. unfold monitor. cbn [o_dev].
  assert (E : answers r 27 = Some (le32 (h_tab (r_hav r)))) by reflexivity. rewrite E.
  unfold fill, le32, at16. cbn [app firstn nth Nat.add repeat]. rewrite le32_join by exact H. reflexivity.
Qed.

(** ** The published flags *)

Lemma dec_lo l o mn mx : (mn < mx)%Q -> bytes l ->
  (mn <= vx (dec3 l o mn mx) /\ mn <= vy (dec3 l o mn mx) /\ mn <= vz (dec3 l o mn mx))%Q.
Proof.
  intros M B.
  assert (N : forall i, 0 <= nth i l 0 < 256).
  { intros i. destruct (Nat.lt_ge_cases i (length l)) as [H|H]; [unfold bytes in B; rewrite Forall_forall in B; apply B, nth_In; exact H|].
    rewrite nth_overflow by exact H. lia. }
  assert (K : forall i, 0 <= at16 l i <= 65535).
  { intros i. unfold at16. pose proof (N i). pose proof (N (S i)). lia. }
  unfold dec3. cbn [vx vy vz]. split; [|split]; apply fp16_range; auto.
Qed.

Lemma fill_bytes z n a : 0 <= z < 256 -> (forall l, a = Some l -> bytes l) -> bytes (fill z n a).
Proof.
  intros Hz Ha. unfold fill.
  assert (R : bytes (repeat z n)) by (apply Forall_forall; intros x Hx; apply repeat_spec in Hx; subst; exact Hz).
  destruct a as [l|]; [|exact R]. specialize (Ha l eq_refl).
  assert (X : bytes (l ++ repeat z n)) by (apply Forall_app; split; assumption).
  unfold bytes in *. rewrite Forall_forall in *. intros x Hx. apply X. rewrite <- (firstn_skipn n (l ++ repeat z n)). apply in_or_app. left. exact Hx.
Qed.

Lemma beyond_above x mn mx : (mx < x)%Q -> beyond x mn mx = true.
Proof. intros H. unfold beyond. destruct (Qlt_le_dec x mn); [reflexivity|]. destruct (Qlt_le_dec mx x); [reflexivity|]. exfalso. lra. Qed.

(** three of the flags are always raised *)
Theorem flags_stuck z ans : 0 <= z < 256 -> (forall p l, ans p = Some l -> bytes l) ->
  let o := monitor z ans in o_frmp o = true /\ o_fb1 o = true /\ o_fb2 o = true.
Proof.
  intros Hz Ha. cbv zeta. unfold monitor. cbn [o_frmp o_fb1 o_fb2]. unfold beyond3.
  pose proof (fill_bytes z 12 (ans 8) Hz (Ha 8)) as B1. pose proof (fill_bytes z 20 (ans 21) Hz (Ha 21)) as B2.
  destruct (dec_lo _ 6 0 max_torque ltac:(reflexivity) B1) as [A1 _].
  destruct (dec_lo _ 0 (- max_mag1) max_mag1 ltac:(reflexivity) B2) as [A2 _].
  destruct (dec_lo _ 6 (- max_mag2) max_mag2 ltac:(reflexivity) B2) as [A3 _].
  assert (K1 : (max_torque - 1 < 0)%Q) by reflexivity. assert (K2 : (max_mag1 - 1 < - max_mag1)%Q) by reflexivity. assert (K3 : (max_mag1 - 1 < - max_mag2)%Q) by reflexivity.
  rewrite (beyond_above (vx (dec3 (fill z 12 (ans 8)) 6 0 max_torque))) by lra.
  rewrite (beyond_above (vx (dec3 (fill z 20 (ans 21)) 0 (- max_mag1) max_mag1))) by lra.
  rewrite (beyond_above (vx (dec3 (fill z 20 (ans 21)) 6 (- max_mag2) max_mag2))) by lra.
  repeat split.
Qed.

(** when the box is silent every reading is a number made of the filler byte *)
Theorem silent_numbers z : let o := monitor z (fun _ => None) in
  o_spd o = V (fp16 (257 * z) (- max_speed_read) max_speed_read) (fp16 (257 * z) (- max_speed_read) max_speed_read) (fp16 (257 * z) (- max_speed_read) max_speed_read) /\
  o_gyr o = V (fp16 (257 * z) (- max_omega) max_omega) (fp16 (257 * z) (- max_omega) max_omega) (fp16 (257 * z) (- max_omega) max_omega).
Proof.
  cbv zeta. unfold monitor, fill, dec3, at16. cbn [o_spd o_gyr repeat nth Nat.add]. 
  replace (z + 256 * z) with (257 * z) by lia. split; reflexivity.
Qed.
