(** Vector fields: round trip, special cases, precision. *)
From Verif Require Import Base BitArrayModel BitArrayProofs VecSerModel VecSerSpec VecSerProofs.
From Coq Require Import Reals Lra Psatz.
From Flocq Require Import Core.
Local Open Scope R_scope.

Definition clampR (mn mx x : R) : R := Rmax mn (Rmin mx x).
Lemma clampR_in mn mx x : mn <= mx -> mn <= clampR mn mx x <= mx.
Proof. intros H. unfold clampR. pose proof (Rmax_l mn (Rmin mx x)). pose proof (Rmin_l mx x). split; [lra|]. apply Rmax_lub; lra. Qed.
Lemma clampR_id mn mx x : mn <= x <= mx -> clampR mn mx x = x.
Proof. intros H. unfold clampR. rewrite Rmin_right by lra. apply Rmax_right. lra. Qed.

Lemma renc_clamp mn mx n x : mn < mx -> renc mn mx n x = renc mn mx n (clampR mn mx x).
Proof.
  intros H. unfold renc. destruct n; [reflexivity|]. do 4 f_equal. unfold clampR.
  pose proof (Rmax_l mn (Rmin mx x)). pose proof (Rmin_l mx x).
  destruct (Rlt_dec mx x) as [A|A].
  - rewrite Rmin_left by lra. rewrite Rmax_right by lra.
    destruct (Rlt_dec mx mx); destruct (Rlt_dec mx mn); lra.
  - rewrite Rmin_right by lra. destruct (Rlt_dec x mn) as [B|B].
    + rewrite Rmax_left by lra. destruct (Rlt_dec mx mn); [lra|]. destruct (Rlt_dec mn mn); lra.
    + rewrite Rmax_right by lra. destruct (Rlt_dec mx x); [lra|]. destruct (Rlt_dec x mn); lra.
Qed.

Lemma polar_dist_le2 s r t p r' t' p' : s * s = 1 -> 0 <= r -> r' <= r -> 0 <= t <= PI -> 0 <= t' <= PI ->
  sq3 (polar s r t p) (polar s r' t' p') <= (r - r') * (r - r') + r * r * ((t - t') * (t - t') + (p - p') * (p - p')).
Proof.
  intros S R0 RR T T'. destruct (Rle_or_lt 0 r') as [P|P]; [apply polar_dist_le; try assumption; split; assumption|].
  rewrite polar_dist by exact S. apply Rplus_le_compat_l.
  pose proof (sin_ge_0 t (proj1 T) (proj2 T)) as S1. pose proof (sin_ge_0 t' (proj1 T') (proj2 T')) as S2.
  assert (Q : 0 <= 2 * sin ((t - t') / 2) * (2 * sin ((t - t') / 2)) + sin t * sin t' * (2 * sin ((p - p') / 2) * (2 * sin ((p - p') / 2)))).
  { apply Rplus_le_le_0_compat; [apply Rle_0_sqr|]. apply Rmult_le_pos; [apply Rmult_le_pos; assumption|apply Rle_0_sqr]. }
  apply Rle_trans with 0.
  - assert (0 <= r * - r') by (apply Rmult_le_pos; lra). pose proof (Rmult_le_pos _ _ H Q). lra.
  - apply Rmult_le_pos; [apply Rle_0_sqr|]. apply Rplus_le_le_0_compat; apply Rle_0_sqr.
Qed.

(** ** The bits *)
Lemma deser_layout mn mx p xs cr ct cp :
  vdeserialize mn mx p (xs :: val_bits (vb1 p) cr ++ val_bits (vb2 mn mx p) ct ++ val_bits (vb2 mn mx p) cp) =
  polar (if xs : bool then 1 else -1) (rdec mn mx (val_bits (vb1 p) cr)) (rdec 0 PI (val_bits (vb2 mn mx p) ct)) (rdec (- PI / 2) (PI / 2) (val_bits (vb2 mn mx p) cp)).
Proof.
  unfold vdeserialize. cbn [hd tl].
  assert (F : forall n c l, firstn n (val_bits n c ++ l) = val_bits n c).
  { intros n c l. rewrite firstn_app, val_bits_length, Nat.sub_diag, firstn_O, app_nil_r. apply firstn_all2. rewrite val_bits_length. lia. }
  assert (K : forall n c l, skipn n (val_bits n c ++ l) = l).
  { intros n c l. rewrite skipn_app, val_bits_length, Nat.sub_diag, skipn_O. rewrite skipn_all2; [reflexivity|]. rewrite val_bits_length. lia. }
  rewrite F, K, F, K. rewrite <- (app_nil_r (val_bits (vb2 mn mx p) cp)) at 1 2. rewrite F. reflexivity.
Qed.

Definition rad_step (mn mx : R) (p : nat) : R := (mx - mn) / (2 ^ vb1 p - 1).
Definition ang_step (mn mx : R) (p : nat) : R := PI / (2 ^ vb2 mn mx p - 1).

Definition xs_of (v : svec) : R := if Rlt_dec 0 (sv_x v) then 1 else -1.
Definition vnorm (v : svec) : R := norm3 (sv_x v) (sv_y v) (sv_z v).
Definition vtheta (v : svec) : R := acos (sv_z v / vnorm v).

Lemma phi_bound v phi : vphi v = Some phi -> - PI / 2 <= phi <= PI / 2.
Proof.
  unfold vphi. pose proof PI_RGT_0. destruct (Req_EM_T (sv_x v) 0).
  - destruct (Req_EM_T (sv_y v) 0); [discriminate|]. intros [= <-]. destruct (Rlt_dec (sv_y v) 0), (sv_x_neg0 v); lra.
  - intros [= <-]. pose proof (atan_bound (sv_y v / sv_x v)). lra.
Qed.

(** what comes out is near the coordinates taken *)
Theorem general mn mx p v phi : mn < mx -> 0 <= mx -> (1 <= vb2 mn mx p)%nat -> vnorm v <> 0 -> vphi v = Some phi ->
  exists b, vserialize mn mx p v = Some b /\ length b = (1 + vb1 p + 2 * vb2 mn mx p)%nat /\
    let r := clampR mn mx (vnorm v) in
    sq3 (polar (xs_of v) r (vtheta v) phi) (vdeserialize mn mx p b) <= rad_step mn mx p * rad_step mn mx p + r * r * (2 * (ang_step mn mx p * ang_step mn mx p)).
Proof.
  intros H M B N P. pose proof PI_RGT_0 as PP. pose proof (phi_bound v phi P) as PB.
  pose proof (acos_bound (sv_z v / vnorm v)) as TB. fold (vtheta v) in TB.
  set (r := clampR mn mx (vnorm v)). assert (RB : mn <= r <= mx) by (apply clampR_in; lra).
  assert (R0 : 0 <= r). { unfold r, clampR. apply Rle_trans with (Rmin mx (vnorm v)); [|apply Rmax_r]. apply Rmin_glb; [lra|apply norm3_pos]. }
  destruct (renc_dec mn mx (vb1 p) r) as (cr & r' & E1 & C1 & D1 & L1 & U1 & _); [exact H|unfold vb1; lia|exact RB|].
  destruct (renc_dec 0 PI (vb2 mn mx p) (vtheta v)) as (ct & t' & E2 & C2 & D2 & L2 & U2 & _); [lra|exact B|exact TB|].
  destruct (renc_dec (- PI / 2) (PI / 2) (vb2 mn mx p) phi) as (cp & p' & E3 & C3 & D3 & L3 & U3 & _); [lra|exact B|exact PB|].
  assert (XS : (if Rlt_dec 0 (sv_x v / vnorm v) then true else false) = (if Rlt_dec 0 (sv_x v) then true else false)).
  { assert (NP : 0 < vnorm v) by (pose proof (norm3_pos (sv_x v) (sv_y v) (sv_z v)); fold (vnorm v) in *; lra).
    pose proof (Rinv_0_lt_compat _ NP) as IP.
    destruct (Rlt_dec 0 (sv_x v / vnorm v)) as [A|A], (Rlt_dec 0 (sv_x v)) as [A'|A']; try reflexivity; exfalso.
    - apply A'. replace (sv_x v) with (sv_x v / vnorm v * vnorm v) by (field; lra). apply Rmult_lt_0_compat; assumption.
    - apply A. apply Rmult_lt_0_compat; assumption. }
  exists ((if Rlt_dec 0 (sv_x v) then true else false) :: val_bits (vb1 p) cr ++ val_bits (vb2 mn mx p) ct ++ val_bits (vb2 mn mx p) cp).
  split; [|split].
  - unfold vserialize. fold (vnorm v). destruct (Req_EM_T (vnorm v) 0) as [A|_]; [contradiction|]. rewrite P, XS.
    rewrite (renc_clamp mn mx (vb1 p) (vnorm v) H). fold r. fold (vtheta v). rewrite E1, E2, E3. reflexivity.
  - cbn [length]. rewrite !app_length, !val_bits_length. lia.
  - cbv zeta. rewrite deser_layout, D1, D2, D3.
    replace (if if Rlt_dec 0 (sv_x v) then true else false then 1 else -1) with (xs_of v) by (unfold xs_of; destruct (Rlt_dec 0 (sv_x v)); reflexivity).
    assert (SS : xs_of v * xs_of v = 1) by (unfold xs_of; destruct (Rlt_dec 0 (sv_x v)); lra).
    apply Rle_trans with (1 := polar_dist_le2 (xs_of v) r (vtheta v) phi r' t' p' SS R0 (proj2 L1) TB ltac:(lra)).
    unfold rstep in U1, U2, U3. fold (rad_step mn mx p) in U1. replace (PI - 0) with PI in U2 by ring. fold (ang_step mn mx p) in U2.
    replace (PI / 2 - - PI / 2) with PI in U3 by field. fold (ang_step mn mx p) in U3.
    assert (Q : forall a s, 0 <= a < s -> a * a <= s * s) by (intros a s A; apply Rmult_le_compat; lra).
    apply Rplus_le_compat; [apply Q; lra|]. apply Rmult_le_compat_l; [apply Rle_0_sqr|].
    pose proof (Q (vtheta v - t') (ang_step mn mx p) ltac:(lra)). pose proof (Q (phi - p') (ang_step mn mx p) ltac:(lra)). lra.
Qed.

(** ** Which vector the coordinates belong to *)
Lemma scale_polar s r t p k : polar s (k * r) t p = (let '(a, b, c) := polar s r t p in (k * a, k * b, k * c)).
Proof. unfold polar. f_equal; [f_equal|]; ring. Qed.

Lemma coords_ok v : vnorm v <> 0 -> sv_x v <> 0 -> exists phi, vphi v = Some phi /\ polar (xs_of v) (vnorm v) (vtheta v) phi = (sv_x v, sv_y v, sv_z v).
Proof.
  intros N X. unfold vphi. destruct (Req_EM_T (sv_x v) 0) as [A|_]; [contradiction|]. eexists. split; [reflexivity|].
  unfold vtheta, vnorm. apply polar_inv; [exact N|]. unfold xs_of. destruct (Rlt_dec 0 (sv_x v)); [left|right]; split; try reflexivity; lra.
Qed.

Lemma coords_zero v : sv_x v = 0 -> sv_y v <> 0 -> vnorm v <> 0 /\
  exists phi, vphi v = Some phi /\ polar (xs_of v) (vnorm v) (vtheta v) phi = (0, (if sv_x_neg0 v then sv_y v else - sv_y v), sv_z v).
Proof.
  intros X Y. assert (N : vnorm v <> 0).
  { intros E. pose proof (norm3_sq (sv_x v) (sv_y v) (sv_z v)) as Q. fold (vnorm v) in Q. rewrite E, X in Q.
    assert (0 < sv_y v * sv_y v) by nra. nra. }
  split; [exact N|]. unfold vphi. destruct (Req_EM_T (sv_x v) 0) as [_|A]; [|contradiction]. destruct (Req_EM_T (sv_y v) 0) as [A|_]; [contradiction|].
  eexists. split; [reflexivity|]. destruct (sin_theta (sv_x v) (sv_y v) (sv_z v) N) as (_ & C & Sn). fold (vnorm v) in C, Sn. fold (vtheta v) in C, Sn.
  unfold polar. rewrite !(Rmult_assoc (xs_of v) (vnorm v)), Sn, C, X. unfold xs_of. rewrite X. destruct (Rlt_dec 0 0) as [A|_]; [lra|].
  rewrite Rmult_0_l, Rplus_0_l.
  destruct (Rlt_dec (sv_y v) 0) as [L|L].
  - replace (sv_y v * sv_y v) with (- sv_y v * - sv_y v) by ring. rewrite sqrt_square by lra.
    destruct (sv_x_neg0 v); f_equal; f_equal.
    + replace (- -1 * (PI / 2)) with (PI / 2) by ring. rewrite cos_PI2. ring.
    + replace (- -1 * (PI / 2)) with (PI / 2) by ring. rewrite sin_PI2. ring.
    + replace (-1 * (PI / 2)) with (- (PI / 2)) by ring. rewrite cos_neg, cos_PI2. ring.
    + replace (-1 * (PI / 2)) with (- (PI / 2)) by ring. rewrite sin_neg, sin_PI2. ring.
  - rewrite sqrt_square by lra. destruct (sv_x_neg0 v); f_equal; f_equal.
    + replace (- (1) * (PI / 2)) with (- (PI / 2)) by ring. rewrite cos_neg, cos_PI2. ring.
    + replace (- (1) * (PI / 2)) with (- (PI / 2)) by ring. rewrite sin_neg, sin_PI2. ring.
    + rewrite Rmult_1_l, cos_PI2. ring.
    + rewrite Rmult_1_l, sin_PI2. ring.
Qed.

Lemma dist3_le a b e : sq3 a b <= e * e -> 0 <= e -> dist3 b a <= e.
Proof.
  intros H E. rewrite dist3_sq. replace (sq3 b a) with (sq3 a b) by (destruct a as [[a1 a2] a3], b as [[b1 b2] b3]; unfold sq3; ring).
  rewrite <- (sqrt_square e) by exact E. apply sqrt_le_1_alt. exact H.
Qed.

Definition bound (mn mx : R) (p : nat) (r : R) : R := sqrt (rad_step mn mx p * rad_step mn mx p + r * r * (2 * (ang_step mn mx p * ang_step mn mx p))).
Lemma bound_sq mn mx p r : bound mn mx p r * bound mn mx p r = rad_step mn mx p * rad_step mn mx p + r * r * (2 * (ang_step mn mx p * ang_step mn mx p)).
Proof. apply sqrt_def. pose proof (Rle_0_sqr (rad_step mn mx p)). pose proof (Rle_0_sqr (ang_step mn mx p)). pose proof (Rle_0_sqr r). unfold Rsqr in *. nra. Qed.

(** the vector of the same direction whose length is within the limits *)
Definition onto_shell (mn mx : R) (v : svec) : R * R * R :=
  let k := clampR mn mx (vnorm v) / vnorm v in (k * sv_x v, k * sv_y v, k * sv_z v).

Theorem roundtrip_vec mn mx p v : mn < mx -> 0 <= mx -> (1 <= vb2 mn mx p)%nat -> vnorm v <> 0 ->
  (sv_x v <> 0 \/ sv_y v <> 0 /\ sv_x_neg0 v = true) ->
  exists b, vserialize mn mx p v = Some b /\ length b = (1 + vb1 p + 2 * vb2 mn mx p)%nat /\
    dist3 (vdeserialize mn mx p b) (onto_shell mn mx v) <= bound mn mx p (clampR mn mx (vnorm v)).
Proof.
  intros H M B N X.
  assert (P : exists phi, vphi v = Some phi /\ polar (xs_of v) (vnorm v) (vtheta v) phi = (sv_x v, sv_y v, sv_z v)).
  { destruct (Req_EM_T (sv_x v) 0) as [X0|X0]; [|apply coords_ok; assumption]. destruct X as [X|[Y Z]]; [contradiction|].
    destruct (coords_zero v X0 Y) as (_ & phi & A & E). rewrite Z in E. exists phi. split; [exact A|]. rewrite E, X0. reflexivity. }
  destruct P as (phi & P1 & P2). destruct (general mn mx p v phi H M B N P1) as (b & E1 & E2 & E3). cbv zeta in E3.
  exists b. split; [exact E1|]. split; [exact E2|]. apply dist3_le; [|apply sqrt_pos]. rewrite bound_sq.
  assert (E : polar (xs_of v) (clampR mn mx (vnorm v)) (vtheta v) phi = onto_shell mn mx v).
  { replace (clampR mn mx (vnorm v)) with (clampR mn mx (vnorm v) / vnorm v * vnorm v) by (field; exact N). rewrite scale_polar, P2. reflexivity. }
  rewrite <- E. exact E3.
Qed.

(** with x = +0 the second component comes back reversed *)
Theorem reversed_vec mn mx p v : mn < mx -> 0 <= mx -> (1 <= vb2 mn mx p)%nat -> mn <= vnorm v <= mx ->
  sv_x v = 0 -> sv_x_neg0 v = false -> sv_y v <> 0 ->
  exists b, vserialize mn mx p v = Some b /\
    dist3 (vdeserialize mn mx p b) (0, - sv_y v, sv_z v) <= bound mn mx p (vnorm v).
Proof.
  intros H M B R X Z Y. destruct (coords_zero v X Y) as (N & phi & P1 & P2). rewrite Z in P2.
  destruct (general mn mx p v phi H M B N P1) as (b & E1 & E2 & E3). cbv zeta in E3. rewrite clampR_id, P2 in E3 by exact R.
  exists b. split; [exact E1|]. apply dist3_le; [|apply sqrt_pos]. rewrite bound_sq. exact E3.
Qed.

(** no component in the plane, or none at all *)
Theorem axis_undefined mn mx p v : sv_x v = 0 -> sv_y v = 0 -> vserialize mn mx p v = None.
Proof.
  intros X Y. unfold vserialize, vphi. destruct (Req_EM_T _ 0); [reflexivity|]. rewrite X, Y. destruct (Req_EM_T 0 0) as [_|A]; [reflexivity|]. exfalso. apply A. reflexivity.
Qed.

(** any pattern decodes to a vector whose length is within the limits *)
Theorem decoded_length mn mx p b : 0 <= mn < mx -> (1 <= vb2 mn mx p)%nat -> length b = (1 + vb1 p + 2 * vb2 mn mx p)%nat ->
  mn <= len3 (vdeserialize mn mx p b) <= mx.
Proof.
  intros H B L. unfold vdeserialize. set (r := rdec mn mx _). set (t := rdec 0 PI _). set (q := rdec (- PI / 2) (PI / 2) _).
  assert (RB : mn <= r <= mx).
  { apply rdec_range; [lra|]. rewrite firstn_length. destruct b as [|x b]; [discriminate L|]. cbn [tl length] in *. unfold vb1 in *. lia. }
  assert (E : len3 ((if hd false b then 1 else -1) * r * sin t * cos q, (if hd false b then 1 else -1) * r * sin t * sin q, r * cos t) = r).
  { unfold len3. rewrite dist3_sq. apply sqrt_unique; [lra|]. unfold sq3. set (f := if hd false b then 1 else -1).
    assert (F : f * f = 1) by (unfold f; destruct (hd false b); lra).
    pose proof (sin2_cos2 t) as A. pose proof (sin2_cos2 q) as C. unfold Rsqr in *.
    transitivity (f * f * (r * r) * (sin t * sin t) * (sin q * sin q + cos q * cos q) + r * r * (cos t * cos t)); [|ring].
    rewrite F, C. transitivity (r * r * (sin t * sin t + cos t * cos t)); [rewrite A; ring|ring]. }
  rewrite E. exact RB.
Qed.

(** ** Widths *)
Lemma pow2_bpow n : 2 ^ n = bpow radix2 (Z.of_nat n).
Proof. rewrite bpow_powerRZ, <- pow_powerRZ. reflexivity. Qed.

Lemma ratio_pow mn mx p : 0 <= mn < mx -> 3 * mx / (mx - mn) * 2 ^ p <= 2 ^ vb2 mn mx p /\ (2 + p <= vb2 mn mx p)%nat.
Proof.
  intros H. set (q := 3 * mx / (mx - mn)). assert (Q : 3 <= q).
  { unfold q. apply Rmult_le_reg_r with (mx - mn); [lra|]. replace (3 * mx / (mx - mn) * (mx - mn)) with (3 * mx) by (field; lra). lra. }
  set (k := Zceil (ln q / ln 2)). assert (L2 : 0 < ln 2) by (rewrite <- ln_1; apply ln_increasing; lra).
  assert (K : ln q / ln 2 <= IZR k) by apply Zceil_ub.
  assert (K' : ln q <= IZR k * ln 2). { apply Rmult_le_compat_r with (r := ln 2) in K; [|lra]. replace (ln q / ln 2 * ln 2) with (ln q) in K by (field; lra). exact K. }
  assert (QK : q <= bpow radix2 k).
  { rewrite bpow_exp. rewrite <- (exp_ln q) by lra. apply Rle_trans with (exp (IZR k * ln 2)); [|right; f_equal; ring].
    destruct K' as [K'|K']; [left; apply exp_increasing; exact K'|right; rewrite K'; reflexivity]. }
  assert (K2 : (2 <= k)%Z).
  { apply Z.lt_pred_le. change (Z.pred 2) with 1%Z. apply lt_IZR. apply Rlt_le_trans with (2 := K).
    apply Rmult_lt_reg_r with (ln 2); [exact L2|]. replace (ln q / ln 2 * ln 2) with (ln q) by (field; lra). rewrite Rmult_1_l. apply ln_increasing; lra. }
  unfold vb2. fold q. fold k. split; [|lia].
  rewrite !pow2_bpow, Z2Nat.id by lia. rewrite bpow_plus.
  apply Rmult_le_compat_r; [apply bpow_ge_0|exact QK].
Qed.

Lemma PI_le : PI <= 3.34.
Proof.
  destruct (PI_ineq 2) as [_ A]. unfold tg_alt, PI_tg in A. cbn [sum_f_R0 Nat.mul Nat.add INR pow] in A.
  assert (A' : PI / 4 <= 1 - / 3 + / 5 - / 7 + / 9) by (eapply Rle_trans; [exact A|]; right; field). lra.
Qed.

(** twice the declared precision is kept *)
Theorem within_twice mn mx p r : 0 <= mn < mx -> 0 <= r <= mx -> (3 <= vb2 mn mx p)%nat -> bound mn mx p r <= 2 * declared_precision mn mx p.
Proof.
  intros H R B. destruct (ratio_pow mn mx p H) as [Q _]. unfold declared_precision. set (d := (mx - mn) / 2 ^ p).
  assert (P1 : 1 <= 2 ^ p) by (apply pow_R1_Rle; lra).
  assert (D : 0 < d) by (apply Rdiv_lt_0_compat; lra).
  assert (DR : 0 <= rad_step mn mx p <= d / 3).
  { unfold rad_step, vb1. rewrite pow_add. replace (2 ^ 2) with 4 by ring. split; [apply Rmult_le_pos; [lra|apply Rlt_le, Rinv_0_lt_compat; lra]|].
    apply Rmult_le_reg_r with (4 * 2 ^ p - 1); [lra|]. replace ((mx - mn) / (4 * 2 ^ p - 1) * (4 * 2 ^ p - 1)) with (mx - mn) by (field; lra).
    replace (mx - mn) with (d * 2 ^ p) by (unfold d; field; lra). nra. }
  assert (B8 : 8 <= 2 ^ vb2 mn mx p) by (replace 8 with (2 ^ 3) by ring; apply Rle_pow; [lra|exact B]).
  assert (DA : 0 <= r * ang_step mn mx p <= 1.28 * d).
  { pose proof PI_RGT_0 as PP. pose proof PI_le as PL. unfold ang_step. set (w := 2 ^ vb2 mn mx p) in *.
    assert (IP : 0 < / (w - 1)) by (apply Rinv_0_lt_compat; lra).
    assert (0 <= PI / (w - 1)) by (apply Rmult_le_pos; lra).
    split; [apply Rmult_le_pos; lra|]. apply Rle_trans with (mx * (PI / (w - 1))); [apply Rmult_le_compat_r; lra|].
    apply Rmult_le_reg_r with (w - 1); [lra|]. replace (mx * (PI / (w - 1)) * (w - 1)) with (mx * PI) by (field; lra).
    assert (W : 3 * mx <= d * w).
    { replace (3 * mx) with (d * (3 * mx / (mx - mn) * 2 ^ p)) by (unfold d; field; lra). apply Rmult_le_compat_l; lra. }
    assert (W8 : d * 8 <= d * w) by (apply Rmult_le_compat_l; lra).
    assert (MP : mx * PI <= mx * 3.34) by (apply Rmult_le_compat_l; lra).
    replace (1.28 * d * (w - 1)) with (1.28 * (d * w) - 1.28 * d) by ring. lra. }
  unfold bound. rewrite <- (sqrt_square (2 * d)) by lra. apply sqrt_le_1_alt.
  set (a := rad_step mn mx p) in *. set (c := r * ang_step mn mx p) in *.
  replace (r * r * (2 * (ang_step mn mx p * ang_step mn mx p))) with (2 * (c * c)) by (unfold c; ring).
  assert (a * a <= d / 3 * (d / 3)) by (apply Rmult_le_compat; lra).
  assert (c * c <= 1.28 * d * (1.28 * d)) by (apply Rmult_le_compat; lra). nra.
Qed.

(** the width for given limits *)
Lemma vb2_is mn mx p k : 0 <= mn < mx -> bpow radix2 (k - 1) < 3 * mx / (mx - mn) <= bpow radix2 k -> vb2 mn mx p = Z.to_nat (k + Z.of_nat p).
Proof.
  intros H [L U]. unfold vb2. set (q := 3 * mx / (mx - mn)) in *. f_equal. f_equal.
  assert (L2 : 0 < ln 2) by (rewrite <- ln_1; apply ln_increasing; lra). pose proof (bpow_gt_0 radix2 (k - 1)) as G.
  assert (E : forall j, ln (bpow radix2 j) = IZR j * ln 2) by (intros j; rewrite bpow_exp, ln_exp; change (IZR radix2) with 2; ring).
  apply Zceil_imp. split.
  - apply Rmult_lt_reg_r with (ln 2); [exact L2|]. replace (ln q / ln 2 * ln 2) with (ln q) by (field; lra). rewrite <- E. apply ln_increasing; assumption.
  - apply Rmult_le_reg_r with (ln 2); [exact L2|]. replace (ln q / ln 2 * ln 2) with (ln q) by (field; lra). rewrite <- E.
    destruct U as [U|U]; [left; apply ln_increasing; lra|right; rewrite U; reflexivity].
Qed.

(** the position fields keep the declared precision *)
Theorem position_precise r : 0 <= r <= 6921000 -> bound 6771000 6921000 28 r <= declared_precision 6771000 6921000 28.
Proof.
  intros R. assert (E : vb2 6771000 6921000 28 = 36%nat).
  { rewrite (vb2_is 6771000 6921000 28 8); [reflexivity|lra|]. change (bpow radix2 (8 - 1)) with 128. change (bpow radix2 8) with 256. split; lra. }
  unfold bound, declared_precision, rad_step, ang_step, vb1. rewrite E. change (2 + 28)%nat with 30%nat.
  pose proof PI_RGT_0 as PP. pose proof PI_le as PL.
  set (d := (6921000 - 6771000) / 2 ^ 28). assert (D : d = 150000 / 268435456) by (unfold d; f_equal; ring).
  rewrite <- (sqrt_square d) by (rewrite D; lra). apply sqrt_le_1_alt.
  replace (2 ^ 30 - 1) with 1073741823 by ring. replace (2 ^ 36 - 1) with 68719476735 by ring.
  set (a := (6921000 - 6771000) / 1073741823). assert (A : 0 <= a <= 0.26 * d) by (unfold a; rewrite D; lra).
  assert (C : 0 <= r * (PI / 68719476735) <= 0.61 * d).
  { split; [apply Rmult_le_pos; lra|]. apply Rle_trans with (6921000 * (3.34 / 68719476735)); [apply Rmult_le_compat; lra|]. rewrite D. lra. }
  set (c := r * (PI / 68719476735)) in *.
  replace (r * r * (2 * (PI / 68719476735 * (PI / 68719476735)))) with (2 * (c * c)) by (unfold c; ring).
  assert (a * a <= 0.26 * d * (0.26 * d)) by (apply Rmult_le_compat; lra).
  assert (c * c <= 0.61 * d * (0.61 * d)) by (apply Rmult_le_compat; lra). nra.
Qed.

(** ** Fields starting at zero do not *)
Lemma vb2_zero mx p : 0 < mx -> vb2 0 mx p = (2 + p)%nat.
Proof.
  intros H. rewrite (vb2_is 0 mx p 2); [lia|lra|]. replace (3 * mx / (mx - 0)) with 3 by (field; lra).
  change (bpow radix2 (2 - 1)) with 2. change (bpow radix2 2) with 4. lra.
Qed.

Lemma sin_lower x : 0 <= x <= 1 -> x - x * x * x / 6 <= sin x.
Proof.
  intros X. pose proof PI2_3_2. destruct (pre_sin_bound x 0) as [A _]; [lra|lra|].
  apply Rle_trans with (2 := A). right. unfold sin_approx, sin_term. cbn [Nat.mul Nat.add sum_f_R0 pow fact INR]. field.
Qed.

Lemma len_polar s r t p : s * s = 1 -> 0 <= r -> let '(x, y, z) := polar s r t p in norm3 x y z = r.
Proof.
  intros S R. unfold polar, norm3. apply sqrt_unique; [exact R|]. pose proof (sin2_cos2 t) as A. pose proof (sin2_cos2 p) as C. unfold Rsqr in *.
  transitivity (s * s * (r * r) * (sin t * sin t) * (sin p * sin p + cos p * cos p) + r * r * (cos t * cos t)); [|ring].
  rewrite S, C. transitivity (r * r * (sin t * sin t + cos t * cos t)); [rewrite A; ring|ring].
Qed.

Lemma renc_at mn mx n x c : mn < mx -> (1 <= n)%nat -> mn <= x <= mx -> IZR c <= (x - mn) / rstep mn mx n < IZR (c + 1) -> renc mn mx n x = Some c.
Proof.
  intros H N X C. unfold renc. destruct n; [lia|]. destruct (Rlt_dec mx x); [lra|]. destruct (Rlt_dec x mn); [lra|]. f_equal. apply Zfloor_imp. exact C.
Qed.

Lemma renc_top mx n : 0 < mx -> (1 <= n)%nat -> renc 0 mx n mx = Some (2 ^ Z.of_nat n - 1)%Z.
Proof.
  intros H N. pose proof (pow2_ge n N). apply renc_at; [exact H|exact N|lra|]. unfold rstep.
  replace ((mx - 0) / ((mx - 0) / (2 ^ n - 1))) with (2 ^ n - 1) by (field; lra). rewrite plus_IZR, !minus_IZR, <- pow2_Z. lra.
Qed.

Theorem zero_field_imprecise mx p : 0 < mx -> (1 <= p)%nat -> exists v b, vserialize 0 mx p v = Some b /\ vnorm v = mx /\ 0 < sv_x v /\
  declared_precision 0 mx p < dist3 (vdeserialize 0 mx p b) (sv_x v, sv_y v, sv_z v).
Proof.
  intros H P. pose proof PI_RGT_0 as PP. pose proof PI2_3_2 as P3. pose proof PI_4 as P4.
  set (n := (2 + p)%nat). assert (V : vb2 0 mx p = n) by (apply vb2_zero; exact H). assert (V1 : vb1 p = n) by reflexivity.
  assert (W : 2 ^ n = 4 * 2 ^ p) by (unfold n; rewrite pow_add; ring). assert (W2 : 2 <= 2 ^ p) by (apply pow2_ge; exact P).
  set (d := PI / (2 ^ n - 1)). assert (D0 : 0 < d) by (apply Rdiv_lt_0_compat; lra).
  assert (DN : d * (2 ^ n - 1) = PI) by (unfold d; field; lra).
  assert (D1 : d <= 4 / 7). { apply Rmult_le_reg_r with (2 ^ n - 1); [lra|]. rewrite DN. lra. }
  assert (D2 : 3 / 4 <= d * 2 ^ p). { rewrite W in DN. replace (d * (4 * 2 ^ p - 1)) with (4 * (d * 2 ^ p) - d) in DN by ring. lra. }
  (* a direction just short of the middle codes *)
  set (t := PI / 2 + (49 / 100) * d). set (q := (49 / 100) * d).
  set (x := mx * sin t * cos q). set (y := mx * sin t * sin q). set (z := mx * cos t).
  assert (EV : polar 1 mx t q = (x, y, z)) by (unfold polar, x, y, z; rewrite !Rmult_1_l; reflexivity).
  assert (NV : norm3 x y z = mx) by (pose proof (len_polar 1 mx t q ltac:(lra) ltac:(lra)) as A; rewrite EV in A; exact A).
  assert (TB : 0 < t < PI) by (unfold t; lra). assert (QB : - (PI / 2) < q < PI / 2) by (unfold q; lra).
  assert (ST : 0 < sin t) by (apply sin_gt_0; lra). assert (CQ : 0 < cos q) by (apply cos_gt_0; lra).
  assert (X0 : 0 < x) by (unfold x; apply Rmult_lt_0_compat; [apply Rmult_lt_0_compat; lra|lra]).
  assert (TH : acos (z / norm3 x y z) = t). { rewrite NV. unfold z. replace (mx * cos t / mx) with (cos t) by (field; lra). apply acos_cos. lra. }
  assert (PH : atan (y / x) = q). { replace (y / x) with (tan q) by (unfold tan, x, y; field; repeat split; lra). apply atan_tan. lra. }
  set (v := SV x y z false false).
  set (c := (2 ^ Z.of_nat (S p) - 1)%Z).
  assert (CZ : IZR c = 2 * 2 ^ p - 1). { unfold c. rewrite minus_IZR, <- pow2_Z. reflexivity. }
  assert (CR : (0 <= c < 2 ^ Z.of_nat n)%Z).
  { unfold c, n. change (2 + p)%nat with (S (S p)). rewrite (Nat2Z.inj_succ (S p)), Z.pow_succ_r by lia.
    assert (0 < 2 ^ Z.of_nat (S p))%Z by (apply Z.pow_pos_nonneg; lia). lia. }
  assert (N1 : (1 <= n)%nat) by (unfold n; lia).
  assert (RS1 : rstep 0 PI n = d) by (unfold rstep, d; f_equal; ring).
  assert (RS2 : rstep (- PI / 2) (PI / 2) n = d) by (unfold rstep, d; f_equal; field).
  assert (HALF : PI / 2 = d * (2 * 2 ^ p) - d / 2) by (rewrite <- DN, W; field).
  assert (ET : renc 0 PI n t = Some c).
  { apply renc_at; [lra|exact N1|lra|]. rewrite RS1, plus_IZR, CZ. unfold t. rewrite HALF.
    replace ((d * (2 * 2 ^ p) - d / 2 + (49 / 100) * d - 0) / d) with (2 * 2 ^ p - (1 / 100)) by (field; lra). lra. }
  assert (EP : renc (- PI / 2) (PI / 2) n q = Some c).
  { apply renc_at; [lra|exact N1|lra|]. rewrite RS2, plus_IZR, CZ. unfold q. replace ((49 / 100) * d - - PI / 2) with ((49 / 100) * d + PI / 2) by field. rewrite HALF.
    replace (((49 / 100) * d + (d * (2 * 2 ^ p) - d / 2)) / d) with (2 * 2 ^ p - (1 / 100)) by (field; lra). lra. }
  destruct (renc_dec 0 mx n mx) as (cr & r' & ER & CRR & DR & LR & UR & TOP); [lra|exact N1|lra|].
  assert (RR : r' = mx).
  { destruct TOP as [TOP|TOP]; [|exact TOP]. exfalso. rewrite renc_top in ER by assumption. assert (cr = 2 ^ Z.of_nat n - 1)%Z by congruence. lia. }
  exists v, (true :: val_bits n cr ++ val_bits n c ++ val_bits n c).
  assert (VN : vnorm v = mx) by exact NV.
  split; [|split; [exact VN|split; [exact X0|]]].
  - unfold vserialize. change (norm3 (sv_x v) (sv_y v) (sv_z v)) with (norm3 x y z). destruct (Req_EM_T (norm3 x y z) 0) as [A|_]; [lra|].
    unfold vphi. change (sv_x v) with x. change (sv_y v) with y. change (sv_z v) with z. destruct (Req_EM_T x 0) as [A|_]; [lra|].
    rewrite TH, PH, NV, V, V1, ER, ET, EP. destruct (Rlt_dec 0 (x / mx)) as [_|A]; [reflexivity|].
    exfalso. apply A. apply Rdiv_lt_0_compat; assumption.
  - change (sv_x v, sv_y v, sv_z v) with (x, y, z). pose proof (deser_layout 0 mx p true cr c c) as DL. rewrite V, V1 in DL. rewrite DL, DR, RR. clear DL.
    assert (B : bits_val (val_bits n c) = c) by (rewrite bits_val_val_bits; apply Z.mod_small; exact CR).
    assert (DT : rdec 0 PI (val_bits n c) = PI / 2 - d / 2).
    { unfold rdec. rewrite val_bits_length, B, CZ. replace (PI - 0) with PI by ring. fold d. rewrite HALF. field. }
    assert (DP : rdec (- PI / 2) (PI / 2) (val_bits n c) = - (d / 2)).
    { unfold rdec. rewrite val_bits_length, B, CZ. replace (PI / 2 - - PI / 2) with PI by field. fold d. replace (- PI / 2) with (- (PI / 2)) by field. rewrite HALF. field. }
    rewrite DT, DP, dist3_sq, <- EV, polar_dist by lra.
    unfold declared_precision. rewrite <- (sqrt_square ((mx - 0) / 2 ^ p)) by (apply Rlt_le, Rdiv_lt_0_compat; lra). apply sqrt_lt_1_alt.
    split; [apply Rle_0_sqr|].
    replace (PI / 2 - d / 2 - t) with (- ((99 / 100) * d)) by (unfold t; field). replace (- (d / 2) - q) with (- ((99 / 100) * d)) by (unfold q; field).
    replace (- ((99 / 100) * d) / 2) with (- ((495 / 1000) * d)) by field. rewrite sin_neg.
    assert (S1 : sin (PI / 2 - d / 2) = cos (d / 2)) by (rewrite cos_sin, <- (sin_PI_x (PI / 2 - d / 2)); f_equal; field).
    assert (S2 : sin t = cos ((49 / 100) * d)) by (unfold t; rewrite cos_sin; f_equal; ring).
    rewrite S1, S2.
    assert (CL : forall e, 0 <= e <= d / 2 -> 1 - d * d / 8 <= cos e).
    { intros e E. rewrite cos_half. pose proof (sin_half_sq e) as A. assert (e * e <= d / 2 * (d / 2)) by (apply Rmult_le_compat; lra). lra. }
    pose proof (CL (d / 2) ltac:(lra)) as C1. pose proof (CL ((49 / 100) * d) ltac:(lra)) as C2. clear CL.
    assert (DD : 0 < d * d <= (3266 / 10000)). { split; [apply Rmult_lt_0_compat; lra|]. apply Rle_trans with (4 / 7 * (4 / 7)); [apply Rmult_le_compat; lra|lra]. }
    assert (CC : (9198 / 10000) <= cos (d / 2) * cos ((49 / 100) * d)).
    { apply Rle_trans with ((9591 / 10000) * (9591 / 10000)); [lra|]. apply Rmult_le_compat; try lra; nra. }
    pose proof (sin_lower ((495 / 1000) * d) ltac:(lra)) as SL.
    assert (SL' : (4883 / 10000) * d <= sin ((495 / 1000) * d)).
    { apply Rle_trans with (2 := SL). replace ((495 / 1000) * d - (495 / 1000) * d * ((495 / 1000) * d) * ((495 / 1000) * d) / 6) with (d * ((495 / 1000) - (495 / 1000) * (495 / 1000) * (495 / 1000) / 6 * (d * d))) by field.
      rewrite (Rmult_comm (4883 / 10000)). apply Rmult_le_compat_l; lra. }
    set (sn := sin ((495 / 1000) * d)) in *.
    assert (SQ : (9537 / 10000) * (d * d) <= 2 * - sn * (2 * - sn)).
    { replace (2 * - sn * (2 * - sn)) with (4 * (sn * sn)) by ring. assert ((4883 / 10000) * d * ((4883 / 10000) * d) <= sn * sn) by (apply Rmult_le_compat; lra). lra. }
    set (ss := 2 * - sn * (2 * - sn)) in *. set (cc := cos (d / 2) * cos ((49 / 100) * d)) in *.
    replace ((mx - 0) / 2 ^ p * ((mx - 0) / 2 ^ p)) with (mx * mx * (/ 2 ^ p * / 2 ^ p)) by (field; lra).
    replace ((mx - mx) * (mx - mx) + mx * mx * (ss + cc * ss)) with (mx * mx * (ss * (1 + cc))) by ring.
    apply Rmult_lt_compat_l; [apply Rmult_lt_0_compat; lra|].
    set (e := / 2 ^ p) in *. assert (EE : e * 2 ^ p = 1) by (unfold e; field; lra). assert (E0 : 0 < e) by (apply Rinv_0_lt_compat; lra).
    assert (DE : 3 / 4 * e <= d).
    { apply Rmult_le_reg_r with (2 ^ p); [lra|]. rewrite Rmult_assoc, EE. lra. }
    assert (D3 : 3 / 4 * e * (3 / 4 * e) <= d * d) by (apply Rmult_le_compat; lra).
    assert (E2 : 0 < e * e) by (apply Rmult_lt_0_compat; exact E0).
    assert (F : (9537 / 10000) * (d * d) * (19198 / 10000) <= ss * (1 + cc)) by (apply Rmult_le_compat; lra). lra.
Qed.
