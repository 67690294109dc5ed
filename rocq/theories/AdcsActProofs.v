(** Proofs about rods, wheels and the hardware table of the attitude computer. *)
From Verif Require Import Base AdcsModel AdcsSpec AdcsConvProofs.
From Coq Require Import QArith Qabs Lqa.
Local Open Scope Z_scope.

Lemma fup_same {A} (f : nat -> A) i x : fup f i x i = x.
Proof. unfold fup. rewrite Nat.eqb_refl. reflexivity. Qed.
Lemma fup_other {A} (f : nat -> A) i j x : j <> i -> fup f i x j = f j.
Proof. intros H. unfold fup. destruct (Nat.eqb_spec j i); [contradiction|reflexivity]. Qed.

(** ** Torque rods *)

Lemma mtr_actuate_rod ld mode c lim h i : (i < 3)%nat ->
  rod (mtr_actuate ld mode c lim h) i =
  if fn h (3 + i) then (if mode =? 1 then rod_pwm (vnth (body_to_mtr ld c) i) lim else 0) else rod h i.
Proof.
  intros Hi. unfold mtr_actuate.
  assert (G : forall f, rod (fold_left (fun h i => if fn h (3 + i)%nat then rod_actuate h i (f i) else h) [0; 1; 2]%nat h) i =
              if fn h (3 + i) then f i else rod h i).
  { intros f. cbn [fold_left]. unfold rod_actuate, fup.
    destruct (fn h (3 + 0)) eqn:F0; cbn [fn hw_rod rod];
      destruct (fn h (3 + 1)) eqn:F1; cbn [fn hw_rod rod];
      destruct (fn h (3 + 2)) eqn:F2; cbn [fn hw_rod rod];
      destruct i as [|[|[|i]]]; try lia; cbn [Nat.eqb]; rewrite ?F0, ?F1, ?F2; reflexivity. }
  destruct (mode =? 1); cbn [negb]; apply G.
Qed.

Lemma mtr_actuate_rest ld mode c lim h :
  let h' := mtr_actuate ld mode c lim h in
  fn h' = fn h /\ wcw h' = wcw h /\ wccw h' = wccw h /\ heat h' = heat h /\ wset h' = wset h /\ tmp_rd h' = tmp_rd h /\ b1_rd h' = b1_rd h /\
  b2_rd h' = b2_rd h /\ gyr_rd h' = gyr_rd h /\ spd_rd h' = spd_rd h /\ rmp_rd h' = rmp_rd h /\ volts h' = volts h /\
  (forall i, (3 <= i)%nat -> rod h' i = rod h i).
Proof.
  unfold mtr_actuate. cbv zeta.
  assert (G : forall f, let h' := fold_left (fun h i => if fn h (3 + i)%nat then rod_actuate h i (f i) else h) [0; 1; 2]%nat h in
    fn h' = fn h /\ wcw h' = wcw h /\ wccw h' = wccw h /\ heat h' = heat h /\ wset h' = wset h /\ tmp_rd h' = tmp_rd h /\ b1_rd h' = b1_rd h /\
    b2_rd h' = b2_rd h /\ gyr_rd h' = gyr_rd h /\ spd_rd h' = spd_rd h /\ rmp_rd h' = rmp_rd h /\ volts h' = volts h /\
    (forall i, (3 <= i)%nat -> rod h' i = rod h i)).
  { intros f. cbv zeta. cbn [fold_left]. unfold rod_actuate.
    destruct (fn h (3 + 0)) eqn:F0; cbn [fn hw_rod];
      destruct (fn h (3 + 1)) eqn:F1; cbn [fn hw_rod];
      destruct (fn h (3 + 2)) eqn:F2; cbn [fn hw_rod rod wcw wccw heat wset tmp_rd b1_rd b2_rd gyr_rd spd_rd rmp_rd volts];
      repeat split; intros i Hi; unfold fup; destruct i as [|[|[|i]]]; try lia; reflexivity. }
  destruct (mode =? 1); cbn [negb]; apply G.
Qed.

(** the drive never exceeds what was asked for, and has its sign *)
Lemma pwm_bounds c : (0 <= c -> 0 <= inject_Z (Qtrunc (32768 * c / max_moment)) * max_moment / 32768 <= c)%Q /\
                     (c <= 0 -> c <= inject_Z (Qtrunc (32768 * c / max_moment)) * max_moment / 32768 <= 0)%Q.
Proof.
  assert (Mp : (0 < max_moment)%Q) by reflexivity.
  assert (P : forall c, (0 <= c)%Q -> (0 <= inject_Z (Qtrunc (32768 * c / max_moment)) * max_moment / 32768 <= c)%Q).
  { clear c. intros c Hc.
    assert (A : (0 <= 32768 * c / max_moment)%Q) by (apply Qle_shift_div_l; lra).
    destruct (Qtrunc_nonneg _ A) as [B _]. pose proof (Qtrunc_nonneg_Z _ A) as C.
    rewrite Zle_Qle in C. change (inject_Z 0) with 0%Q in C.
    remember (inject_Z (Qtrunc (32768 * c / max_moment))) as t.
    split.
    - apply Qle_shift_div_l; [lra|]. ring_simplify. nra.
    - apply Qle_shift_div_r; [lra|]. assert (E : (32768 * c / max_moment * max_moment == 32768 * c)%Q) by (field; lra). nra. }
  split; intros Hc; [apply P; exact Hc|].
  assert (N : (0 <= - c)%Q) by lra. specialize (P (- c)%Q N).
  assert (E : Qtrunc (32768 * - c / max_moment) = - Qtrunc (32768 * c / max_moment)).
  { rewrite <- Qtrunc_opp. apply Qtrunc_comp. field. lra. }
  rewrite E, inject_Z_opp in P. remember (inject_Z (Qtrunc (32768 * c / max_moment))) as t. 
  assert (F : (- t * max_moment / 32768 == - (t * max_moment / 32768))%Q) by field.
  rewrite F in P. lra.
Qed.

Lemma rod_pwm_cases c lim :
  rod_pwm c lim = if Qlt_le_dec c (- lim) then Qtrunc (32768 * - lim / max_moment) else Qtrunc (32768 * c / max_moment).
Proof. unfold rod_pwm. destruct (Qlt_le_dec lim c), (Qlt_le_dec c (- lim)); reflexivity. Qed.

Theorem rod_lower ld c lim h i : (i < 3)%nat -> fn h (3 + i) = true -> (0 <= lim)%Q ->
  (- lim <= moment (mtr_actuate ld 1 c lim h) i)%Q.
Proof.
  intros Hi F L. unfold moment. rewrite mtr_actuate_rod, F by exact Hi. change (1 =? 1) with true. cbv iota.
  rewrite rod_pwm_cases. remember (vnth (body_to_mtr ld c) i) as x.
  destruct (Qlt_le_dec x (- lim)).
  - destruct (pwm_bounds (- lim)) as [_ B]. specialize (B ltac:(lra)). lra.
  - destruct (pwm_bounds x) as [A B]. destruct (Qlt_le_dec x 0).
    + specialize (B ltac:(lra)). lra.
    + specialize (A ltac:(lra)). lra.
Qed.

Theorem rod_within ld c lim h i : (i < 3)%nat -> fn h (3 + i) = true ->
  (Qabs (vnth (body_to_mtr ld c) i) <= lim)%Q -> (Qabs (moment (mtr_actuate ld 1 c lim h) i) <= lim)%Q.
Proof.
  intros Hi F L. unfold moment. rewrite mtr_actuate_rod, F by exact Hi. change (1 =? 1) with true. cbv iota.
  rewrite rod_pwm_cases. remember (vnth (body_to_mtr ld c) i) as x.
  apply Qabs_Qle_condition in L. apply Qabs_Qle_condition.
  destruct (Qlt_le_dec x (- lim)); [lra|].
  destruct (pwm_bounds x) as [A B]. destruct (Qlt_le_dec x 0).
  - specialize (B ltac:(lra)). lra.
  - specialize (A ltac:(lra)). lra.
Qed.

(** each body component goes to exactly one rod *)
Lemma body_to_mtr_abs ld c i : (i < 3)%nat ->
  exists j, (j < 3)%nat /\ (vnth (body_to_mtr ld c) i == vnth c j \/ vnth (body_to_mtr ld c) i == - vnth c j)%Q.
Proof.
  intros Hi. destruct i as [|[|[|i]]]; [exists 2%nat|exists 0%nat|exists 1%nat|lia]; (split; [lia|]);
    unfold body_to_mtr; destruct ld; cbn [vnth vx vy vz]; (left; reflexivity) || (right; reflexivity).
Qed.

Theorem rod_full_scale ld c h i : (i < 3)%nat -> fn h (3 + i) = true -> in_range3 (- max_moment) max_moment c ->
  (Qabs (moment (mtr_actuate ld 1 c max_moment h) i) <= max_moment)%Q.
Proof.
  intros Hi F [Hx [Hy Hz]]. apply rod_within; [exact Hi|exact F|].
  unfold in_range in *. destruct (body_to_mtr_abs ld c i Hi) as [j [Hj [E|E]]]; rewrite E; apply Qabs_Qle_condition;
    destruct j as [|[|[|j]]]; try lia; cbn [vnth]; lra.
Qed.

(** a zero command: the value the box decodes is half a step off, and drives nothing *)
Definition zero_code : vec := fp3 (32767, 32767, 32767) (- max_moment) max_moment.

Lemma pwm_tiny x lim : (0 <= lim)%Q -> (- (max_moment / 65535) <= x <= max_moment / 65535)%Q -> rod_pwm x lim = 0.
Proof.
  intros L H. rewrite rod_pwm_cases.
  assert (Mp : (0 < max_moment)%Q) by reflexivity.
  remember (max_moment / 65535)%Q as st eqn:Est.
  assert (Bst : (32768 * st < max_moment)%Q) by (subst st; reflexivity).
  assert (P : forall y, (- st <= y <= st)%Q -> Qtrunc (32768 * y / max_moment) = 0).
  { intros y Hy. apply Qtrunc_small.
    - apply Qlt_shift_div_l; [exact Mp|]. lra.
    - apply Qlt_shift_div_r; [exact Mp|]. lra. }
  destruct (Qlt_le_dec x (- lim)); apply P; lra.
Qed.

Theorem zero_rod ld lim h i : (i < 3)%nat -> fn h (3 + i) = true -> (0 <= lim)%Q ->
  rod (mtr_actuate ld 1 zero_code lim h) i = 0.
Proof.
  intros Hi F L. rewrite mtr_actuate_rod, F by exact Hi. change (1 =? 1) with true. cbv iota.
  apply pwm_tiny; [exact L|].
  destruct ld; destruct i as [|[|[|i]]]; try lia; split; vm_compute; discriminate.
Qed.

(** ** Wheels *)

Definition all3 (P : nat -> Prop) : Prop := P 0%nat /\ P 1%nat /\ P 2%nat.
Lemma all3_lt (P : nat -> Prop) : all3 P -> forall i, (i < 3)%nat -> P i.
Proof. intros [A [B C]] i Hi. destruct i as [|[|[|i]]]; try assumption. lia. Qed.

Lemma wheel_actuate_eq h i :
  wcw (wheel_actuate h i) = fup (wcw h) i (negb (0 <=? wset h i)) /\
  wccw (wheel_actuate h i) = fup (wccw h) i (0 <=? wset h i) /\
  fn (wheel_actuate h i) = fn h /\ wset (wheel_actuate h i) = wset h /\ wrmp (wheel_actuate h i) = wrmp h /\
  rdac (wheel_actuate h i) = fup (rdac h) i (wrmp h i) /\ rod (wheel_actuate h i) = rod h /\ heat (wheel_actuate h i) = heat h.
Proof. unfold wheel_actuate. cbn [wset hw_rdac]. destruct (0 <=? wset h i); repeat split. Qed.

Lemma wheels_actuate_dir h i : (i < 3)%nat ->
  wcw (wheels_actuate h) i = (if fn h (7 + i) then negb (0 <=? wset h i) else wcw h i) /\
  wccw (wheels_actuate h) i = (if fn h (7 + i) then 0 <=? wset h i else wccw h i) /\
  rdac (wheels_actuate h) i = (if fn h (7 + i) then wrmp h i else rdac h i).
Proof.
  intros Hi. unfold wheels_actuate. cbn [fold_left].
  destruct (wheel_actuate_eq h 0) as [A1 [A2 [A3 [A4 [A5 [A6 _]]]]]].
  remember (if fn h (7 + 0) then wheel_actuate h 0 else h) as h1 eqn:E1.
  assert (B : fn h1 = fn h /\ wset h1 = wset h /\ wrmp h1 = wrmp h).
  { subst h1. destruct (fn h (7 + 0)); auto. }
  destruct B as [B1 [B2 B3]].
  destruct (wheel_actuate_eq h1 1) as [C1 [C2 [C3 [C4 [C5 [C6 _]]]]]].
  remember (if fn h1 (7 + 1) then wheel_actuate h1 1 else h1) as h2 eqn:E2.
  assert (D : fn h2 = fn h /\ wset h2 = wset h /\ wrmp h2 = wrmp h).
  { subst h2. destruct (fn h1 (7 + 1)); rewrite ?C3, ?C4, ?C5; auto. }
  destruct D as [D1 [D2 D3]].
  destruct (wheel_actuate_eq h2 2) as [F1 [F2 [F3 [F4 [F5 [F6 _]]]]]].
  rewrite D1.
  assert (G2 : wcw (if fn h (7 + 2) then wheel_actuate h2 2 else h2) = (if fn h (7 + 2) then fup (wcw h2) 2 (negb (0 <=? wset h 2)) else wcw h2)).
  { destruct (fn h (7 + 2)); [rewrite F1, D2|]; reflexivity. }
  assert (G2' : wccw (if fn h (7 + 2) then wheel_actuate h2 2 else h2) = (if fn h (7 + 2) then fup (wccw h2) 2 (0 <=? wset h 2) else wccw h2)).
  { destruct (fn h (7 + 2)); [rewrite F2, D2|]; reflexivity. }
  assert (G2'' : rdac (if fn h (7 + 2) then wheel_actuate h2 2 else h2) = (if fn h (7 + 2) then fup (rdac h2) 2 (wrmp h 2) else rdac h2)).
  { destruct (fn h (7 + 2)); [rewrite F6, D3|]; reflexivity. }
  rewrite G2, G2', G2''. clear G2 G2' G2''.
  rewrite B1 in E2. 
  assert (H2 : wcw h2 = (if fn h (7 + 1) then fup (wcw h1) 1 (negb (0 <=? wset h 1)) else wcw h1)).
  { subst h2. destruct (fn h (7 + 1)); [rewrite C1, B2|]; reflexivity. }
  assert (H2' : wccw h2 = (if fn h (7 + 1) then fup (wccw h1) 1 (0 <=? wset h 1) else wccw h1)).
  { subst h2. destruct (fn h (7 + 1)); [rewrite C2, B2|]; reflexivity. }
  assert (H2'' : rdac h2 = (if fn h (7 + 1) then fup (rdac h1) 1 (wrmp h 1) else rdac h1)).
  { subst h2. destruct (fn h (7 + 1)); [rewrite C6, B3|]; reflexivity. }
  assert (I1 : wcw h1 = (if fn h (7 + 0) then fup (wcw h) 0 (negb (0 <=? wset h 0)) else wcw h)).
  { subst h1. destruct (fn h (7 + 0)); [rewrite A1|]; reflexivity. }
  assert (I1' : wccw h1 = (if fn h (7 + 0) then fup (wccw h) 0 (0 <=? wset h 0) else wccw h)).
  { subst h1. destruct (fn h (7 + 0)); [rewrite A2|]; reflexivity. }
  assert (I1'' : rdac h1 = (if fn h (7 + 0) then fup (rdac h) 0 (wrmp h 0) else rdac h)).
  { subst h1. destruct (fn h (7 + 0)); [rewrite A6|]; reflexivity. }
  rewrite H2, H2', H2'', I1, I1', I1''. clear - Hi.
  destruct i as [|[|[|i]]]; try lia; destruct (fn h (7 + 0)), (fn h (7 + 1)), (fn h (7 + 2)); repeat split.
Qed.

(** direction of each functional wheel after a torque command *)
Lemma torque_set_wset c l h0 :
  fold_left (fun h i => obind h (fun h =>
        if Qlt_le_dec (vnth c i) 0 then option_map (wheel_set h i (-2000)) (uc (- vnth c i) 0 max_torque)
        else option_map (wheel_set h i 2000) (uc (vnth c i) 0 max_torque))) l None = Some h0 -> False.
Proof. induction l; simpl; [discriminate|exact IHl]. Qed.

Lemma torque_step c h i h' :
  (if Qlt_le_dec (vnth c i) 0 then option_map (wheel_set h i (-2000)) (uc (- vnth c i) 0 max_torque)
   else option_map (wheel_set h i 2000) (uc (vnth c i) 0 max_torque)) = Some h' ->
  exists r, h' = wheel_set h i (if Qlt_le_dec (vnth c i) 0 then -2000 else 2000) r.
Proof.
  destruct (Qlt_le_dec (vnth c i) 0); [destruct (uc (- vnth c i) 0 max_torque) as [r|] | destruct (uc (vnth c i) 0 max_torque) as [r|]];
    simpl; intros X; try discriminate; injection X as <-; exists r; reflexivity.
Qed.

Theorem torque_direction e c h h' i : (i < 3)%nat -> fn h 6 = true -> fn h (7 + i) = true ->
  rwa_actuate e 2 c h = Some h' ->
  wcw h' i = (if Qlt_le_dec (vnth (body_to_rwa c) i) 0 then true else false) /\
  wccw h' i = (if Qlt_le_dec (vnth (body_to_rwa c) i) 0 then false else true).
Proof.
  intros Hi P F. unfold rwa_actuate. change (2 =? 2) with true. cbv iota. rewrite P. cbn [negb]. cbv zeta.
  remember (body_to_rwa c) as w. clear Heqw c.
  match goal with |- option_map _ ?x = _ -> _ => destruct x as [h3|] eqn:E end; cbn [option_map]; [|discriminate].
  intros X; assert (EX : h' = pot_write e (wheels_actuate h3)) by congruence; clear X.
  cbn [fold_left obind] in E.
  destruct (if Qlt_le_dec (vnth w 0) 0 then _ else _) as [h1|] eqn:E1; [|cbn in E; discriminate]. cbn [obind] in E.
  destruct (if Qlt_le_dec (vnth w 1) 0 then _ else _) as [h2|] eqn:E2 in E; [|cbn in E; discriminate]. cbn [obind] in E.
  apply torque_step in E1, E2, E. destruct E1 as [r1 ->], E2 as [r2 ->], E as [r3 ->].
  remember (wheel_set (wheel_set (wheel_set h 0 _ r1) 1 _ r2) 2 _ r3) as g eqn:G.
  destruct (wheels_actuate_dir g i Hi) as [A [B _]].
  assert (FG : fn g = fn h) by (subst g; reflexivity). rewrite FG, F in A, B.
  assert (SG : wset g i = if Qlt_le_dec (vnth w i) 0 then -2000 else 2000).
  { subst g. unfold wheel_set. cbn [wset hw_set]. destruct i as [|[|[|i]]]; [| | |lia]; reflexivity. }
  assert (W : wcw h' = wcw (wheels_actuate g) /\ wccw h' = wccw (wheels_actuate g)).
  { subst h'. unfold pot_write. destruct (e_pot e); split; reflexivity. }
  destruct W as [-> ->]. rewrite A, B, SG. destruct (Qlt_le_dec (vnth w i) 0); split; reflexivity.
Qed.

(** a speed command never turns a wheel clockwise *)
Theorem speed_direction e c h h' i : (i < 3)%nat -> fn h (7 + i) = true -> in_range3 (- max_speed_command) max_speed_command c ->
  rwa_actuate e 1 c h = Some h' -> wcw h' i = false /\ wccw h' i = true.
Proof.
  intros Hi F R. unfold rwa_actuate. change (1 =? 2) with false. change (1 =? 1) with true. cbv iota zeta.
  remember (body_to_rwa c) as w.
  match goal with |- Some ?x = _ -> _ => intros X; assert (EX : h' = x) by congruence; clear X end.
  remember (fold_left _ [0; 1; 2]%nat h) as g eqn:G.
  destruct (wheels_actuate_dir g i Hi) as [A [B _]].
  set (S := fun i => Qtrunc (1000 * vnth w i / max_speed_command + 1000)) in *.
  assert (FG : fn g = fn h /\ wset g i = S i).
  { subst g. cbn [fold_left]. unfold wheel_set.
    destruct (fn h (7 + 0)) eqn:F0; cbn [fn hw_set]; destruct (fn h (7 + 1)) eqn:F1; cbn [fn hw_set]; destruct (fn h (7 + 2)) eqn:F2; cbn [fn hw_set wset];
    (split; [reflexivity|]); destruct i as [|[|[|i]]]; try lia; try congruence; reflexivity. }
  destruct FG as [FG SG]. rewrite FG, F in A, B.
  assert (W : wcw h' = wcw (wheels_actuate g) /\ wccw h' = wccw (wheels_actuate g)).
  { subst h'. unfold pot_write. destruct (fn (wheels_actuate g) 6), (e_pot e); split; reflexivity. }
  destruct W as [-> ->]. rewrite A, B, SG.
  assert (N : 0 <= S i).
  { unfold S. apply Qtrunc_nonneg_Z.
    assert (K : (- max_speed_command <= vnth w i)%Q).
    { subst w. destruct R as [[R1 R2] [[R3 R4] [R5 R6]]]. destruct i as [|[|[|i]]]; [| | |lia]; cbn [vnth body_to_rwa vx vy vz]; lra. }
    assert (Mp : (0 < max_speed_command)%Q) by reflexivity.
    assert (D : (-(1000) <= 1000 * vnth w i / max_speed_command)%Q) by (apply Qle_shift_div_l; [exact Mp|lra]). lra. }
  apply Z.leb_le in N. rewrite N. split; reflexivity.
Qed.

(** serving a command in the disabled mode stops every functional wheel, and moves nothing else *)
Theorem disabled_stops e mode c h h' i : mode <> 1 -> mode <> 2 -> (i < 3)%nat ->
  rwa_actuate e mode c h = Some h' ->
  (fn h (7 + i) = true -> stopped h' i) /\ (fn h (7 + i) = false -> wcw h' i = wcw h i /\ wccw h' i = wccw h i).
Proof.
  intros M1 M2 Hi. unfold rwa_actuate. apply Z.eqb_neq in M1, M2. rewrite M1, M2. cbv zeta.
  match goal with |- Some ?x = _ -> _ => intros X; assert (EX : h' = x) by congruence; clear X end. subst h'.
  cbn [fold_left]. unfold wheel_stop, stopped.
  destruct (fn h (7 + 0)) eqn:F0; cbn [fn hw_dir]; destruct (fn h (7 + 1)) eqn:F1; cbn [fn hw_dir]; destruct (fn h (7 + 2)) eqn:F2; cbn [fn hw_dir wcw wccw];
    destruct i as [|[|[|i]]]; try lia; split; intros Q; try congruence; split; reflexivity.
Qed.

(** what a wheel command can touch *)
Definition keeps (h h' : hw) : Prop :=
  fn h' = fn h /\ rod h' = rod h /\ heat h' = heat h /\ tmp_rd h' = tmp_rd h /\ b1_rd h' = b1_rd h /\ b2_rd h' = b2_rd h /\
  gyr_rd h' = gyr_rd h /\ spd_rd h' = spd_rd h /\ rmp_rd h' = rmp_rd h /\ volts h' = volts h.
Lemma keeps_refl h : keeps h h.
Proof. repeat split. Qed.
Lemma keeps_trans h1 h2 h3 : keeps h1 h2 -> keeps h2 h3 -> keeps h1 h3.
Proof. unfold keeps. intuition congruence. Qed.
Lemma keeps_fold {A} (f : hw -> A -> hw) l h : (forall h x, keeps h (f h x)) -> keeps h (fold_left f l h).
Proof.
  intros H. revert h. induction l as [|x l IH]; intros h; [apply keeps_refl|]. simpl. eapply keeps_trans; [apply H|apply IH].
Qed.
Lemma keeps_actuate h i : keeps h (wheel_actuate h i).
Proof. unfold wheel_actuate. cbn [wset hw_rdac]. destruct (0 <=? wset h i); repeat split. Qed.
Lemma keeps_wheels h : keeps h (wheels_actuate h).
Proof.
  unfold wheels_actuate. apply keeps_fold. intros g i. destruct (fn g (7 + i)); [apply keeps_actuate|apply keeps_refl].
Qed.
Lemma keeps_pot e h : keeps h (pot_write e h) /\ wcw (pot_write e h) = wcw h /\ wccw (pot_write e h) = wccw h.
Proof. unfold pot_write. destruct (e_pot e); repeat split. Qed.

Lemma wheels_unused h i : (i < 3)%nat -> fn h (7 + i) = false -> wcw (wheels_actuate h) i = wcw h i /\ wccw (wheels_actuate h) i = wccw h i.
Proof. intros Hi F. destruct (wheels_actuate_dir h i Hi) as [A [B _]]. rewrite F in A, B. auto. Qed.

Theorem rwa_actuate_rest e mode c h h' : rwa_actuate e mode c h = Some h' ->
  keeps h h' /\ (forall i, (i < 3)%nat -> fn h (7 + i) = false -> wcw h' i = wcw h i /\ wccw h' i = wccw h i).
Proof.
  destruct (Z.eq_dec mode 1) as [-> | M1]; [|destruct (Z.eq_dec mode 2) as [-> | M2]].
  - unfold rwa_actuate. change (1 =? 2) with false. change (1 =? 1) with true. cbv iota zeta.
    match goal with |- Some ?x = _ -> _ => intros X; assert (EX : h' = x) by congruence; clear X end.
    remember (fold_left _ [0; 1; 2]%nat h) as g eqn:G.
    assert (KG : keeps h g /\ wcw g = wcw h /\ wccw g = wccw h).
    { subst g. cbn [fold_left]. unfold wheel_set.
      destruct (fn h (7 + 0)) eqn:F0; cbn [fn hw_set]; destruct (fn h (7 + 1)) eqn:F1; cbn [fn hw_set]; destruct (fn h (7 + 2)) eqn:F2; repeat split. }
    destruct KG as [KG [W1 W2]].
    destruct (keeps_pot e (wheels_actuate g)) as [KP [P1 P2]].
    assert (KH : keeps (wheels_actuate g) h' /\ wcw h' = wcw (wheels_actuate g) /\ wccw h' = wccw (wheels_actuate g)).
    { subst h'. destruct (fn (wheels_actuate g) 6); [auto|repeat split]. }
    destruct KH as [KH [H1 H2]]. split.
    + eapply keeps_trans; [exact KG|]. eapply keeps_trans; [apply keeps_wheels|exact KH].
    + intros i Hi F. assert (FG : fn g (7 + i) = false) by (destruct KG as [-> _]; exact F).
      destruct (wheels_unused g i Hi FG) as [A B]. rewrite H1, H2, A, B, W1, W2. auto.
  - unfold rwa_actuate. change (2 =? 2) with true. cbv iota. destruct (fn h 6); cbn [negb].
    2:{ intros X; injection X as <-. split; [apply keeps_refl|auto]. }
    cbv zeta. remember (body_to_rwa c) as w. clear Heqw c.
    match goal with |- option_map _ ?x = _ -> _ => destruct x as [h3|] eqn:E end; cbn [option_map]; [|discriminate].
    intros X; assert (EX : h' = pot_write e (wheels_actuate h3)) by congruence; clear X.
    cbn [fold_left obind] in E.
    destruct (if Qlt_le_dec (vnth w 0) 0 then _ else _) as [h1|] eqn:E1; [|cbn in E; discriminate]. cbn [obind] in E.
    destruct (if Qlt_le_dec (vnth w 1) 0 then _ else _) as [h2|] eqn:E2 in E; [|cbn in E; discriminate]. cbn [obind] in E.
    apply torque_step in E1, E2, E. destruct E1 as [r1 ->], E2 as [r2 ->], E as [r3 ->].
    remember (wheel_set (wheel_set (wheel_set h 0 _ r1) 1 _ r2) 2 _ r3) as g eqn:G.
    assert (KG : keeps h g /\ wcw g = wcw h /\ wccw g = wccw h) by (subst g; repeat split).
    destruct KG as [KG [W1 W2]]. destruct (keeps_pot e (wheels_actuate g)) as [KP [P1 P2]]. subst h'. split.
    + eapply keeps_trans; [exact KG|]. eapply keeps_trans; [apply keeps_wheels|exact KP].
    + intros i Hi F. assert (FG : fn g (7 + i) = false) by (destruct KG as [-> _]; exact F).
      destruct (wheels_unused g i Hi FG) as [A B]. rewrite P1, P2, A, B, W1, W2. auto.
  - intros E. split.
    + revert E. unfold rwa_actuate. apply Z.eqb_neq in M1, M2. rewrite M1, M2. cbv zeta. intros X.
      match type of X with Some ?x = _ => assert (EX : h' = x) by congruence end. subst h'. apply keeps_fold.
      intros g i. destruct (fn g (7 + i)); repeat split.
    + intros i Hi F. destruct (disabled_stops e mode c h h' i M1 M2 Hi E) as [_ D]. auto.
Qed.

(** ** Reset and disable *)

Lemma dev_reset_self e h i : (i < n_dev)%nat ->
  exists f, dev_view i (dev_reset e h i) = idle_view f /\ (bus_dev i = false -> f = true) /\ (bus_dev i = true -> f = e_reset e i).
Proof.
  intros Hi. unfold n_dev in Hi. unfold dev_reset, dev_view, idle_view, bus_dev.
  destruct i as [|[|[|[|[|[|[|[|[|[|[|[|[|[|[|[|[|[|[|i]]]]]]]]]]]]]]]]]]]; try lia;
    cbn; eexists; (split; [reflexivity|split; intros X; (discriminate || reflexivity)]).
Qed.

Lemma rod_range i : is_rod i = true -> (3 <= i <= 5)%nat.
Proof. unfold is_rod. intros H. apply andb_true_iff in H. destruct H as [A B]. apply Nat.leb_le in A, B. lia. Qed.
Lemma wheel_range i : is_wheel i = true -> (7 <= i <= 9)%nat.
Proof. unfold is_wheel. intros H. apply andb_true_iff in H. destruct H as [A B]. apply Nat.leb_le in A, B. lia. Qed.

(** a device operation leaves the view of the others alone *)
Lemma view_other h h' i j : j <> i ->
  (exists b, fn h' = fup (fn h) i b) ->
  (rod h' = rod h \/ is_rod i = true /\ rod h' = fup (rod h) (i - 3) 0) ->
  (wcw h' = wcw h /\ wccw h' = wccw h \/ is_wheel i = true /\ wcw h' = fup (wcw h) (i - 7) false /\ wccw h' = fup (wccw h) (i - 7) false) ->
  (heat h' = heat h \/ i = 18%nat) ->
  dev_view j h' = dev_view j h.
Proof.
  intros Hj [b F] R W T. unfold dev_view.
  assert (E1 : fn h' j = fn h j) by (rewrite F; apply fup_other; exact Hj).
  assert (E2 : (if is_rod j then rod h' (j - 3) else 0) = (if is_rod j then rod h (j - 3) else 0)).
  { destruct (is_rod j) eqn:K; [|reflexivity]. destruct R as [-> | [I ->]]; [reflexivity|].
    apply rod_range in I, K. apply fup_other. lia. }
  assert (E3 : (if is_wheel j then (wcw h' (j - 7), wccw h' (j - 7)) else (false, false)) =
               (if is_wheel j then (wcw h (j - 7), wccw h (j - 7)) else (false, false))).
  { destruct (is_wheel j) eqn:K; [|reflexivity]. destruct W as [[-> ->] | [I [-> ->]]]; [reflexivity|].
    apply wheel_range in I, K. rewrite !fup_other by lia. reflexivity. }
  assert (E4 : (if Nat.eqb j 18 then heat h' else 0) = (if Nat.eqb j 18 then heat h else 0)).
  { destruct (Nat.eqb_spec j 18); [|reflexivity]. destruct T as [-> | T]; [reflexivity|]. congruence. }
  rewrite E1, E2, E3, E4. reflexivity.
Qed.

Lemma rod_not_wheel i : is_rod i = true -> is_wheel i = false.
Proof. intros H. destruct (is_wheel i) eqn:K; [|reflexivity]. apply rod_range in H. apply wheel_range in K. lia. Qed.

Lemma dev_reset_other e h i j : j <> i -> dev_view j (dev_reset e h i) = dev_view j h.
Proof.
  intros Hj. apply (view_other h _ i j Hj); unfold dev_reset.
  - destruct (is_rod i); [eexists; reflexivity|]. destruct (is_wheel i); [eexists; reflexivity|].
    destruct (Nat.eqb i 18); [eexists; reflexivity|]. destruct (Nat.eqb i 6); [|eexists; reflexivity].
    destruct (e_reset e i); eexists; reflexivity.
  - destruct (is_rod i); [right; split; reflexivity|]. left. destruct (is_wheel i); [reflexivity|].
    destruct (Nat.eqb i 18); [reflexivity|]. destruct (Nat.eqb i 6); [destruct (e_reset e i)|]; reflexivity.
  - destruct (is_rod i) eqn:K; [left; split; reflexivity|]. destruct (is_wheel i); [right; split; [reflexivity|split; reflexivity]|].
    left. destruct (Nat.eqb i 18); [split; reflexivity|]. destruct (Nat.eqb i 6); [destruct (e_reset e i)|]; split; reflexivity.
  - destruct (is_rod i); [left; reflexivity|]. destruct (is_wheel i); [left; reflexivity|].
    destruct (Nat.eqb_spec i 18); [right; assumption|]. left. destruct (Nat.eqb i 6); [destruct (e_reset e i)|]; reflexivity.
Qed.

Lemma dev_disable_self e h i : (i < n_dev)%nat -> dev_view i (dev_disable e h i) = idle_view false.
Proof.
  intros Hi. unfold n_dev in Hi. unfold dev_disable, dev_view, idle_view, pot_write.
  destruct i as [|[|[|[|[|[|[|[|[|[|[|[|[|[|[|[|[|[|[|i]]]]]]]]]]]]]]]]]]]; try lia; try reflexivity.
Qed.

Lemma dev_disable_other e h i j : j <> i -> dev_view j (dev_disable e h i) = dev_view j h.
Proof.
  intros Hj. apply (view_other h _ i j Hj); unfold dev_disable, pot_write.
  - destruct (is_rod i); [eexists; reflexivity|]. destruct (is_wheel i); [eexists; reflexivity|].
    destruct (Nat.eqb i 18); [eexists; reflexivity|]. destruct (Nat.eqb i 6); [|eexists; reflexivity].
    destruct (e_pot e); eexists; reflexivity.
  - destruct (is_rod i); [right; split; reflexivity|]. left. destruct (is_wheel i); [reflexivity|].
    destruct (Nat.eqb i 18); [reflexivity|]. destruct (Nat.eqb i 6); [destruct (e_pot e)|]; reflexivity.
  - destruct (is_rod i) eqn:K; [left; split; reflexivity|]. destruct (is_wheel i); [right; split; [reflexivity|split; reflexivity]|].
    left. destruct (Nat.eqb i 18); [split; reflexivity|]. destruct (Nat.eqb i 6); [destruct (e_pot e)|]; split; reflexivity.
  - destruct (is_rod i); [left; reflexivity|]. destruct (is_wheel i); [left; reflexivity|].
    destruct (Nat.eqb_spec i 18); [right; assumption|]. left. destruct (Nat.eqb i 6); [destruct (e_pot e)|]; reflexivity.
Qed.

(** ** Whole tables *)

Section Table.
  Variable op : hw -> nat -> hw.
  Variable sel : nat -> bool.
  Hypothesis other : forall h i j, j <> i -> dev_view j (op h i) = dev_view j h.
  Let go := fold_left (fun h i => if sel i then op h i else h).

  Lemma table_unnamed l h j : sel j = false \/ ~ In j l -> dev_view j (go l h) = dev_view j h.
  Proof.
    revert h. induction l as [|i l IH]; intros h H; [reflexivity|]. unfold go. cbn [fold_left]. fold (go l).
    rewrite IH by (destruct H; [left|right]; simpl in *; tauto).
    destruct (sel i) eqn:S; [|reflexivity]. apply other. intros ->. destruct H as [H|H]; [congruence|]. apply H. left. reflexivity.
  Qed.

  Lemma table_named l h j : NoDup l -> In j l -> sel j = true ->
    exists g, dev_view j (go l h) = dev_view j (op g j).
  Proof.
    revert h. induction l as [|i l IH]; intros h N I S; [contradiction|]. unfold go. cbn [fold_left]. fold (go l).
    inversion N as [|? ? N1 N2]; subst. destruct (Nat.eq_dec j i) as [-> | D].
    - rewrite S. exists h. apply table_unnamed. right. exact N1.
    - destruct I as [I|I]; [congruence|]. apply IH; assumption.
  Qed.
End Table.

Theorem reset_table_effect e t h j : (j < n_dev)%nat ->
  (Z.testbit t (Z.of_nat j) = false -> dev_view j (exec_reset e t h) = dev_view j h) /\
  (Z.testbit t (Z.of_nat j) = true ->
   exists f, dev_view j (exec_reset e t h) = idle_view f /\ (bus_dev j = false -> f = true) /\ (bus_dev j = true -> f = e_reset e j)).
Proof.
  intros Hj. unfold exec_reset. split; intros T.
  - apply (table_unnamed (dev_reset e) (fun i => Z.testbit t (Z.of_nat i))); [intros; apply dev_reset_other; assumption|left; exact T].
  - destruct (table_named (dev_reset e) (fun i => Z.testbit t (Z.of_nat i)) ltac:(intros; apply dev_reset_other; assumption) (seq 0 n_dev) h j
       (seq_NoDup _ _) ltac:(apply in_seq; lia) T) as [g G].
    destruct (dev_reset_self e g j Hj) as [f [A B]]. exists f. rewrite G. auto.
Qed.

Theorem disable_table_effect e t h j : (j < n_dev)%nat ->
  (Z.testbit t (Z.of_nat j) = false -> dev_view j (exec_disable e t h) = dev_view j h) /\
  (Z.testbit t (Z.of_nat j) = true -> dev_view j (exec_disable e t h) = idle_view false).
Proof.
  intros Hj. unfold exec_disable. split; intros T.
  - apply (table_unnamed (dev_disable e) (fun i => Z.testbit t (Z.of_nat i))); [intros; apply dev_disable_other; assumption|left; exact T].
  - destruct (table_named (dev_disable e) (fun i => Z.testbit t (Z.of_nat i)) ltac:(intros; apply dev_disable_other; assumption) (seq 0 n_dev) h j
       (seq_NoDup _ _) ltac:(apply in_seq; lia) T) as [g G].
    rewrite G. apply dev_disable_self. exact Hj.
Qed.

(** ** The tables the flight computer sends *)

Lemma or_table_bit f t k : 0 <= k ->
  Z.testbit (or_table f t) k = Z.testbit t k || ((k <? Z.of_nat n_dev) && f (Z.to_nat k)).
Proof.
  intros Hk. unfold or_table.
  assert (G : forall l t, Z.testbit (fold_left (fun t i => if f i then Z.lor t (2 ^ Z.of_nat i) else t) l t) k =
              Z.testbit t k || (existsb (fun i => f i && Nat.eqb i (Z.to_nat k)) l)).
  { induction l as [|i l IH]; intros t'; [simpl; rewrite orb_false_r; reflexivity|]. cbn [fold_left existsb]. rewrite IH.
    destruct (f i); cbn [andb orb]; [|reflexivity].
    rewrite Z.lor_spec, Z.pow2_bits_eqb by lia. rewrite <- orb_assoc. f_equal. f_equal.
    destruct (Z.eqb_spec (Z.of_nat i) k), (Nat.eqb_spec i (Z.to_nat k)); try reflexivity; lia. }
  rewrite G. f_equal. apply eq_true_iff_eq. rewrite existsb_exists, andb_true_iff. split.
  - intros [i [I X]]. apply in_seq in I. apply andb_true_iff in X. destruct X as [X Y]. apply Nat.eqb_eq in Y. subst i.
    split; [apply Z.ltb_lt; lia|exact X].
  - intros [X Y]. apply Z.ltb_lt in X. exists (Z.to_nat k). split; [apply in_seq; lia|]. rewrite Y, Nat.eqb_refl. reflexivity.
Qed.

Lemma or_table_range f t : 0 <= t < 2 ^ 19 -> 0 <= or_table f t < 2 ^ 19.
Proof.
  intros H. assert (N : 0 <= or_table f t).
  { unfold or_table. assert (G : forall l t, 0 <= t -> 0 <= fold_left (fun t i => if f i then Z.lor t (2 ^ Z.of_nat i) else t) l t).
    { induction l as [|i l IH]; intros t' Ht; [exact Ht|]. cbn [fold_left]. apply IH. destruct (f i); [|exact Ht].
      apply Z.lor_nonneg. split; [exact Ht|]. apply Z.pow_nonneg. lia. }
    apply G. lia. }
  split; [exact N|]. destruct (Z.eq_dec (or_table f t) 0) as [E|E]; [rewrite E; reflexivity|].
  apply Z.log2_lt_pow2; [lia|]. apply Z.nle_gt. intros L.
  assert (B : Z.testbit (or_table f t) (Z.log2 (or_table f t)) = true) by (apply Z.bit_log2; lia).
  rewrite or_table_bit in B by (pose proof (Z.log2_nonneg (or_table f t)); lia).
  assert (C : (Z.log2 (or_table f t) <? Z.of_nat n_dev) = false) by (apply Z.ltb_ge; exact L).
  rewrite C, andb_false_l, orb_false_r in B. destruct (Z.eq_dec t 0) as [-> | T0]; [rewrite Z.testbit_0_l in B; discriminate|].
  rewrite Z.bits_above_log2 in B; [discriminate|lia|]. apply Z.lt_le_trans with 19; [apply Z.log2_lt_pow2; lia|exact L].
Qed.
