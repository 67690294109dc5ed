From Verif Require Import Base AdcsModel AdcsSpec AdcsRefuteProofs AdcsEndProofs AdcsFilterSpec.
From Coq Require Import QArith Qabs Qround Lqa.
Local Open Scope Q_scope.

Lemma speed_filter e f r h : smooths3 f (spd_rd h) (spd_rd (rwa_sense e 1 r h)) (spd_rd (rwa_sense e f r h)).
Proof. unfold rwa_sense, smooths3, smooths. cbn [spd_rd hw_wrd vmap vmap2 rwa_to_body vx vy vz]. cbv zeta. repeat split; ring. Qed.
Lemma ramp_filter_is_speed_filter e f r h : smooths3 f (rmp_rd h) (rmp_rd (rwa_sense e 1 r h)) (rmp_rd (rwa_sense e f r h)).
Proof. unfold rwa_sense, smooths3, smooths. cbn [rmp_rd hw_wrd vmap vmap2 rwa_to_body vx vy vz]. cbv zeta. repeat split; ring. Qed.
Lemma ramp_constant_unused e f r r' h : rwa_sense e f r h = rwa_sense e f r' h.
Proof. reflexivity. Qed.

Lemma gyr_filter e f g g' w w' p p' t t' h : smooths3 f (gyr_rd h) (gyr_rd (gyr_update e 1 g w p h)) (gyr_rd (gyr_update e f g' w' p' h)) /\
  smooths t (tmp_rd h) (tmp_rd (gyr_update e g g 1 p h)) (tmp_rd (gyr_update e t' g' t p' h)).
Proof.
  assert (N : forall h x, gyr_rd (hw_heat h x) = gyr_rd h /\ tmp_rd (hw_heat h x) = tmp_rd h) by (intros; split; reflexivity).
  unfold gyr_update, smooths3, smooths, filt. cbv zeta.
  destruct (fn h 0%nat) eqn:F, (e_gyr e) as [[tt ww]|];
  repeat match goal with |- context [gyr_rd (if ?c then _ else _)] => destruct c end;
  repeat match goal with |- context [tmp_rd (if ?c then _ else _)] => destruct c end;
  cbn [gyr_rd tmp_rd hw_heat hw_gyr vx vy vz vmap2]; repeat split; ring.
Qed.

Lemma mag_filter e f m h : smooths3 f (b1_rd h) (b1_rd (mag1_update e 1 h)) (b1_rd (mag1_update e f h)) /\
  smooths3 f (b2_rd h) (b2_rd (mag2_update e m 1 h)) (b2_rd (mag2_update e m f h)).
Proof.
  unfold mag1_update, mag2_update, smooths3, smooths, filt.
  destruct (fn h 1%nat), (fn h 2%nat), (e_b1 e), (e_b2 e), (m =? 1)%Z; cbn [negb b1_rd b2_rd hw_b1 hw_b2 vx vy vz vmap2]; repeat split; ring.
Qed.

Lemma ssa_filter e f h j : smooths f (volts h j) (volts (ssa_update e 1 h) j) (volts (ssa_update e f h) j).
Proof. unfold ssa_update, smooths. cbn [volts hw_volts]. cbv zeta. ring. Qed.

(** the ramp reading moves although its constant says it is to stay *)
Lemma ramp_moves : exists e f h, ~ smooths3 0 (rmp_rd h) (rmp_rd (rwa_sense e 1 1 h)) (rmp_rd (rwa_sense e f 0 h)).
Proof.
  exists se0, 1, (hw0 all_up). unfold smooths3, smooths. intros (H & _). vm_compute in H. discriminate H.
Qed.

(** ** Lost sensors *)
Lemma lost_imu e i h : (fn h 0%nat = false \/ e_gyr e = None) -> (fn h 1%nat = false \/ e_b1 e = None) -> (fn h 2%nat = false \/ e_b2 e = None) ->
  let h' := imu_update e i h in gyr_rd h' = gyr_rd h /\ tmp_rd h' = tmp_rd h /\ b1_rd h' = b1_rd h /\ b2_rd h' = b2_rd h.
Proof.
  intros A B C. cbv zeta. unfold imu_update.
  assert (G : let h1 := gyr_update e (i_gflt i) (i_des i) (i_tflt i) (i_pwm i) h in
    gyr_rd h1 = gyr_rd h /\ tmp_rd h1 = tmp_rd h /\ b1_rd h1 = b1_rd h /\ b2_rd h1 = b2_rd h /\ fn h1 = fn h).
  { unfold gyr_update. cbv zeta. assert (R : (if fn h 0%nat then e_gyr e else None) = None) by (destruct A as [-> | ->]; [reflexivity|destruct (fn h 0%nat); reflexivity]).
    rewrite R. destruct (negb (fn h 18%nat)); [repeat split; reflexivity|]. destruct (negb (fn h 0%nat)); repeat split; reflexivity. }
  cbv zeta in G. set (h1 := gyr_update _ _ _ _ _ h) in *. destruct G as (G1 & G2 & G3 & G4 & G5).
  assert (M : let h2 := mag1_update e (i_mflt i) h1 in gyr_rd h2 = gyr_rd h1 /\ tmp_rd h2 = tmp_rd h1 /\ b1_rd h2 = b1_rd h1 /\ b2_rd h2 = b2_rd h1 /\ fn h2 = fn h1).
  { unfold mag1_update. cbv zeta. destruct B as [B|B]; [assert (F : fn h1 1%nat = false) by (rewrite G5; exact B); rewrite F; repeat split; reflexivity|]. rewrite B. destruct (negb (fn h1 1%nat)); repeat split; reflexivity. }
  cbv zeta in M. set (h2 := mag1_update _ _ h1) in *. destruct M as (M1 & M2 & M3 & M4 & M5).
  rewrite <- G1, <- G2, <- G3, <- G4, <- M1, <- M2, <- M3, <- M4.
  unfold mag2_update. destruct C as [C|C]; [assert (F : fn h2 2%nat = false) by (rewrite M5, G5; exact C); rewrite F; repeat split; reflexivity|]. rewrite C.
  destruct (negb (fn h2 2%nat)); [repeat split; reflexivity|]. cbv zeta. destruct (i_m2 i =? 1)%Z; repeat split; reflexivity.
Qed.

Lemma lost_sun e f h j : fn h (13 + j / 4)%nat = false \/ e_ssa e j = None -> volts (ssa_update e f h) j == volts h j.
Proof.
  intros H. unfold ssa_update. cbn [volts hw_volts]. cbv zeta.
  assert (R : (if fn h (13 + j / 4)%nat then match e_ssa e j with Some c => adc_volt c | None => volts h j end else volts h j) = volts h j)
    by (destruct H as [-> | ->]; [reflexivity|destruct (fn h (13 + j / 4)%nat); reflexivity]).
  rewrite R. ring.
Qed.

(** with all wheel converters lost the "last value" is taken for a voltage *)
Definition no_wheel_adc (h : hw) : Prop := fn h 10%nat = false /\ fn h 11%nat = false /\ fn h 12%nat = false.
Lemma lost_step e r h : no_wheel_adc h -> no_wheel_adc (rwa_sense e 1 r h) /\
  same3 (spd_rd (rwa_sense e 1 r h)) (V (2 * max_speed_read * vz (spd_rd h) / max_volt - max_speed_read)
    (- (2 * max_speed_read * vx (spd_rd h) / max_volt - max_speed_read)) (- (2 * max_speed_read * vy (spd_rd h) / max_volt - max_speed_read))).
Proof.
  intros (A & B & C). split; [split; [exact A|split; [exact B|exact C]]|].
  unfold rwa_sense, same3. cbn [spd_rd hw_wrd vmap vmap2 rwa_to_body vx vy vz Nat.add]. cbv zeta. rewrite A, B, C. cbn [vnth vx vy vz].
  unfold Qdiv. repeat split; ring.
Qed.

Lemma grow x q : max_speed_read <= q -> q <= Qabs x -> 600 * q <= Qabs (2 * max_speed_read * x / max_volt - max_speed_read).
Proof.
  intros M Q. assert (E : 2 * max_speed_read * x / max_volt == (20944 # 33) * x) by (unfold max_speed_read, max_volt, Qdiv; ring_simplify; field || ring).
  rewrite E. apply Qle_trans with (Qabs ((20944 # 33) * x) - Qabs max_speed_read).
  - rewrite Qabs_Qmult. change (Qabs (20944 # 33)) with (20944 # 33). change (Qabs max_speed_read) with max_speed_read.
    unfold max_speed_read in *. lra.
  - apply (Qabs_triangle_reverse ((20944 # 33) * x) max_speed_read).
Qed.

Lemma lost_grow e r h q : no_wheel_adc h -> max_speed_read <= q -> reaches q (spd_rd h) -> reaches (600 * q) (spd_rd (rwa_sense e 1 r h)).
Proof.
  intros N M Q. destruct (lost_step e r h N) as (_ & X & Y & Z). cbn [vx vy vz] in X, Y, Z. unfold reaches. rewrite X, Y, Z, !Qabs_opp.
  destruct Q as [Q|[Q|Q]]; [right; left|right; right|left]; apply grow; assumption.
Qed.

Lemma passes_lost n e r h : no_wheel_adc h -> no_wheel_adc (passes n e 1 r h).
Proof. intros H. induction n; [exact H|]. cbn [passes]. apply lost_step. exact IHn. Qed.

Fixpoint pow600 (n : nat) : Q := match n with O => 1 | S n => 600 * pow600 n end.
Lemma pow600_ge n : inject_Z (Z.of_nat n) <= pow600 n /\ 1 <= pow600 n.
Proof.
  induction n as [|n [A B]]; [split; vm_compute; discriminate|]. cbn [pow600]. rewrite Nat2Z.inj_succ. unfold Z.succ. rewrite inject_Z_plus.
  change (inject_Z 1) with 1. split; lra.
Qed.

Lemma lost_n e r h n : no_wheel_adc h -> same3 (spd_rd h) (V 0 0 0) -> reaches (max_speed_read * pow600 n) (spd_rd (passes (S n) e 1 r h)).
Proof.
  intros N Z. induction n as [|n IH].
  - cbn [passes pow600]. destruct (lost_step e r h N) as (_ & X & Y & _). destruct Z as (Z1 & Z2 & Z3). cbn [vx vy vz] in *.
    left. rewrite X, Z3. vm_compute. discriminate.
  - cbn [pow600]. change (passes (S (S n)) e 1 r h) with (rwa_sense e 1 r (passes (S n) e 1 r h)).
    assert (E : max_speed_read * (600 * pow600 n) == 600 * (max_speed_read * pow600 n)) by ring.
    unfold reaches. rewrite E. apply lost_grow; [apply passes_lost; exact N| |exact IH].
    destruct (pow600_ge n) as [_ P]. unfold max_speed_read in *. lra.
Qed.

Theorem lost_diverges e r h : no_wheel_adc h -> same3 (spd_rd h) (V 0 0 0) -> forall q, exists n, reaches q (spd_rd (passes n e 1 r h)).
Proof.
  intros N Z q. exists (S (Z.to_nat (Qceiling q))). pose proof (lost_n e r h (Z.to_nat (Qceiling q)) N Z) as L.
  destruct (pow600_ge (Z.to_nat (Qceiling q))) as [A B]. pose proof (Qle_ceiling q) as C.
  assert (D : q <= max_speed_read * pow600 (Z.to_nat (Qceiling q))).
  { destruct (Z_le_gt_dec 0 (Qceiling q)) as [P|P].
    - rewrite Z2Nat.id in A by exact P. unfold max_speed_read. lra.
    - assert (inject_Z (Qceiling q) <= 0) by (change 0 with (inject_Z 0); rewrite <- Zle_Qle; lia). unfold max_speed_read. lra. }
  unfold reaches in *. destruct L as [L|[L|L]]; [left|right; left|right; right]; eapply Qle_trans; eauto.
Qed.

(** a boot without the wheel converters: full reverse speed is reported after the first pass *)
Definition no_adc : nat -> bool := fun i => negb ((10 <=? i)%nat && (i <=? 12)%nat).
Lemma lost_at_boot : exists b, reachable true b /\ (forall i, (10 <= i <= 12)%nat -> fn (dv b) i = false) /\ vx (w_spd (r_rwa (rg b))) == - max_speed_read.
Proof.
  assert (R : match brun true (box0 no_adc) (sent (SetMode 1) ++ sent (SetRwa 2 torque1) ++ idle 20) with Some b => andb (Qeq_bool (vx (w_spd (r_rwa (rg b)))) (- max_speed_read)) (forallb (fun i => negb (fn (dv b) i)) [10; 11; 12]%nat) | None => false end = true)
    by (vm_compute; reflexivity).
  destruct (brun true (box0 no_adc) (sent (SetMode 1) ++ sent (SetRwa 2 torque1) ++ idle 20)) as [b|] eqn:E; [|discriminate R]. exists b. apply andb_prop in R as [R1 R2].
  split; [exists no_adc, (sent (SetMode 1) ++ sent (SetRwa 2 torque1) ++ idle 20); exact E|]. split; [|apply Qeq_bool_iff; exact R1].
  intros i I. rewrite forallb_forall in R2. specialize (R2 i). assert (In i [10; 11; 12]%nat) by (cbn; lia). apply R2 in H. apply negb_true_iff. exact H.
Qed.

(** the sensors behind a sun vector *)
Lemma ssa_lit_sensors h : lit_sensors h (ssa_lit h).
Proof.
  unfold ssa_lit. split; [apply NoDup_filter, seq_NoDup|]. intros j H. apply filter_In in H as [H1 H2]. apply in_seq in H1.
  apply andb_true_iff in H2 as [H2 H3]. destruct (Qlt_le_dec 1 (volts h j)); [|discriminate]. split; [lia|]. auto.
Qed.
Lemma ssa_lit_all h js : lit_sensors h js -> (length js <= length (ssa_lit h))%nat.
Proof.
  intros [N H]. apply NoDup_incl_length; [assumption|]. intros j Hj. destruct (H j Hj) as (H1 & H2 & H3). unfold ssa_lit. apply filter_In.
  split; [apply in_seq; lia|]. rewrite H2. destruct (Qlt_le_dec 1 (volts h j)) as [|L]; [reflexivity|]. exfalso. exact (Qlt_not_le _ _ H3 L).
Qed.
Lemma sun_sensors ld f l b : Forall asks_sun l -> brun ld (box0 f) l = Some b -> s_mode (r_ssa (rg b)) = 2%Z ->
  exists l1 e l2 b1 js, l = l1 ++ Step e :: l2 /\ brun ld (box0 f) l1 = Some b1 /\ (4 <= length js)%nat /\ lit_sensors (dv b1) js /\
    s_vec (r_ssa (rg b)) = Some (e_sun e).
Proof.
  intros A R M. destruct (sun_origin ld f l b A R M) as (l1 & e & l2 & b1 & E & R1 & _ & L & V).
  exists l1, e, l2, b1, (ssa_lit (dv b1)). split; [exact E|]. split; [exact R1|]. split; [exact L|]. split; [apply ssa_lit_sensors|exact V].
Qed.
Lemma sun_found e h js : lit_sensors h js -> (4 <= length js)%nat -> sun_calc e h = (2%Z, Some (e_sun e)).
Proof.
  intros H L. pose proof (ssa_lit_all h js H) as X. unfold sun_calc. destruct (Nat.ltb_spec (length (ssa_lit h)) 4); [lia|reflexivity].
Qed.
