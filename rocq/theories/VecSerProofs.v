(** Proofs about vector serialization in exact arithmetic. *)
From Verif Require Import Base BitArrayModel BitArrayProofs VecSerModel VecSerSpec.
From Coq Require Import Reals Lra Psatz.
From Flocq Require Import Core.
Local Open Scope R_scope.

Lemma pow2_Z n : 2 ^ n = IZR (2 ^ Z.of_nat n).
Proof. rewrite <- pow_IZR. reflexivity. Qed.
Lemma pow2_ge n : (1 <= n)%nat -> 2 <= 2 ^ n.
Proof. intros H. destruct n; [lia|]. simpl. assert (1 <= 2 ^ n) by (apply pow_R1_Rle; lra). lra. Qed.

Definition rstep (mn mx : R) (n : nat) : R := (mx - mn) / (2 ^ n - 1).
Lemma rstep_pos mn mx n : mn < mx -> (1 <= n)%nat -> 0 < rstep mn mx n.
Proof. intros H N. pose proof (pow2_ge n N). unfold rstep. apply Rdiv_lt_0_compat; lra. Qed.

Lemma renc_dec mn mx n x : mn < mx -> (1 <= n)%nat -> mn <= x <= mx ->
  exists c x', renc mn mx n x = Some c /\ (0 <= c < 2 ^ Z.of_nat n)%Z /\ rdec mn mx (val_bits n c) = x' /\
    mn <= x' <= x /\ x < x' + rstep mn mx n /\ (c < 2 ^ Z.of_nat n - 1 \/ x' = mx)%Z.
Proof.
  intros H N X. pose proof (rstep_pos mn mx n H N) as SP. pose proof (pow2_ge n N) as P.
  unfold renc. destruct n as [|k]; [lia|]. set (n := Datatypes.S k) in *. fold (rstep mn mx n).
  destruct (Rlt_dec mx x) as [A|_]; [lra|]. destruct (Rlt_dec x mn) as [A|_]; [lra|].
  set (c := Zfloor ((x - mn) / rstep mn mx n)).
  assert (C1 : IZR c <= (x - mn) / rstep mn mx n) by apply Zfloor_lb.
  assert (C2 : (x - mn) / rstep mn mx n < IZR c + 1) by apply Zfloor_ub.
  assert (E : (x - mn) / rstep mn mx n * rstep mn mx n = x - mn) by (field; lra).
  assert (C1' : IZR c * rstep mn mx n <= x - mn) by (rewrite <- E; apply Rmult_le_compat_r; lra).
  assert (C2' : x - mn < (IZR c + 1) * rstep mn mx n) by (rewrite <- E; apply Rmult_lt_compat_r; lra).
  assert (C0 : (0 <= c)%Z).
  { apply Zfloor_lub. apply Rmult_le_reg_r with (rstep mn mx n); [lra|]. rewrite E. lra. }
  assert (CT : (c <= 2 ^ Z.of_nat n - 1)%Z).
  { apply le_IZR. rewrite minus_IZR, <- pow2_Z. apply Rmult_le_reg_r with (rstep mn mx n); [exact SP|].
    apply Rle_trans with (1 := C1'). unfold rstep. replace ((2 ^ n - 1) * ((mx - mn) / (2 ^ n - 1))) with (mx - mn) by (field; lra). lra. }
  exists c, (mn + rstep mn mx n * IZR c). split; [reflexivity|]. split; [lia|].
  assert (B : bits_val (val_bits n c) = c) by (rewrite bits_val_val_bits; apply Z.mod_small; lia).
  split; [|split; [|split]].
  - unfold rdec. rewrite val_bits_length, B. reflexivity.
  - assert (0 <= IZR c) by (apply IZR_le; exact C0). split; [|lra].
    assert (0 <= rstep mn mx n * IZR c) by (apply Rmult_le_pos; lra). lra.
  - lra.
  - destruct (Z.eq_dec c (2 ^ Z.of_nat n - 1)) as [Q|Q]; [right|left; lia].
    rewrite Q, minus_IZR, <- pow2_Z. unfold rstep. field. lra.
Qed.

Lemma rdec_range mn mx b : mn <= mx -> (1 <= length b)%nat -> mn <= rdec mn mx b <= mx.
Proof.
  intros H N. pose proof (pow2_ge _ N) as P. unfold rdec. pose proof (bits_val_range b) as [B1 B2].
  assert (B : 0 <= IZR (bits_val b) <= 2 ^ length b - 1).
  { split; [apply IZR_le; exact B1|]. rewrite pow2_Z, <- minus_IZR. apply IZR_le. lia. }
  assert (0 <= (mx - mn) / (2 ^ length b - 1)) by (apply Rmult_le_pos; [lra|apply Rlt_le, Rinv_0_lt_compat; lra]).
  assert ((mx - mn) / (2 ^ length b - 1) * (2 ^ length b - 1) = mx - mn) by (field; lra).
  split; [assert (0 <= (mx - mn) / (2 ^ length b - 1) * IZR (bits_val b)) by (apply Rmult_le_pos; lra); lra|].
  assert ((mx - mn) / (2 ^ length b - 1) * IZR (bits_val b) <= (mx - mn) / (2 ^ length b - 1) * (2 ^ length b - 1)) by (apply Rmult_le_compat_l; lra). lra.
Qed.

(** ** Polar coordinates *)
Definition polar (s r t p : R) : R * R * R := (s * r * sin t * cos p, s * r * sin t * sin p, r * cos t).

Lemma norm3_sq x y z : norm3 x y z * norm3 x y z = x * x + y * y + z * z.
Proof. apply sqrt_def. nra. Qed.
Lemma norm3_pos x y z : 0 <= norm3 x y z. Proof. apply sqrt_pos. Qed.

Lemma sqrt_unique a b : 0 <= a -> a * a = b -> sqrt b = a.
Proof. intros A E. rewrite <- E. apply sqrt_square. exact A. Qed.

(** sine of the polar angle *)
Lemma sin_theta x y z : norm3 x y z <> 0 ->
  let r := norm3 x y z in -1 <= z / r <= 1 /\ r * cos (acos (z / r)) = z /\ r * sin (acos (z / r)) = sqrt (x * x + y * y).
Proof.
  intros N r. pose proof (norm3_sq x y z) as Q. pose proof (norm3_pos x y z) as P. fold r in Q, P, N. assert (RP : 0 < r) by lra.
  assert (B : -1 <= z / r <= 1).
  { split; apply Rmult_le_reg_r with r; try lra; replace (z / r * r) with z by (field; lra); nra. }
  split; [exact B|]. rewrite cos_acos, sin_acos by exact B. split; [field; lra|].
  symmetry. apply sqrt_unique; [apply Rmult_le_pos; [lra|apply sqrt_pos]|].
  replace (r * sqrt (1 - (z / r)²) * (r * sqrt (1 - (z / r)²))) with (r * r * (sqrt (1 - (z / r)²) * sqrt (1 - (z / r)²))) by ring.
  rewrite sqrt_def.
  - unfold Rsqr. replace (r * r * (1 - z / r * (z / r))) with (r * r - z * z) by (field; lra). lra.
  - unfold Rsqr. nra.
Qed.

Lemma sgn_abs x s : (0 < x /\ s = 1 \/ x < 0 /\ s = -1) -> x = s * sqrt (x * x) /\ 0 < sqrt (x * x).
Proof. intros [[A B]|[A B]]; subst s; [rewrite sqrt_square by lra|replace (x * x) with (- x * - x) by ring; rewrite sqrt_square by lra]; lra. Qed.

(** a vector off the plane x = 0 is recovered from its coordinates *)
Lemma polar_inv x y z s : norm3 x y z <> 0 -> (0 < x /\ s = 1 \/ x < 0 /\ s = -1) ->
  polar s (norm3 x y z) (acos (z / norm3 x y z)) (atan (y / x)) = (x, y, z).
Proof.
  intros N S. destruct (sin_theta x y z N) as (_ & C & Sn). set (r := norm3 x y z) in *.
  assert (X0 : x <> 0) by (destruct S; lra). unfold polar. rewrite !(Rmult_assoc s r), Sn, C.
  rewrite cos_atan, sin_atan. destruct (sgn_abs x s S) as [X1 X2].
  assert (E : sqrt (x * x + y * y) = sqrt (x * x) * sqrt (1 + (y / x)²)).
  { rewrite <- sqrt_mult_alt by nra. f_equal. unfold Rsqr. field. exact X0. }
  assert (P : 0 < sqrt (1 + (y / x)²)) by (apply sqrt_lt_R0; pose proof (Rle_0_sqr (y / x)); lra).
  rewrite E. set (q := sqrt (1 + (y / x)²)) in *. set (w := sqrt (x * x)) in *.
  f_equal. f_equal.
  - replace (s * (w * q) * (1 / q)) with (s * w) by (field; lra). lra.
  - replace (s * (w * q) * (y / x / q)) with (s * w * (y / x)) by (field; split; lra). rewrite <- X1. field. exact X0.
Qed.

(** ** Distance of two points in polar coordinates *)
Lemma sin_abs_le x : Rabs (sin x) <= Rabs x.
Proof.
  assert (P : forall x, 0 <= x -> Rabs (sin x) <= x).
  { intros t T. destruct (Rle_or_lt t 1) as [L|L].
    - pose proof PI2_3_2. rewrite Rabs_pos_eq by (apply sin_ge_0; lra). destruct (Req_dec t 0) as [->|Z]; [rewrite sin_0; lra|].
      apply Rlt_le, sin_lt_x. lra.
    - pose proof (SIN_bound t). apply Rabs_le. lra. }
  destruct (Rle_or_lt 0 x) as [H|H]; [rewrite (Rabs_pos_eq x) by exact H; apply P; exact H|].
  rewrite (Rabs_left x) by exact H. rewrite <- Rabs_Ropp, <- sin_neg. apply P. lra.
Qed.
Lemma sin_half_sq d : (2 * sin (d / 2)) * (2 * sin (d / 2)) <= d * d.
Proof.
  pose proof (sin_abs_le (d / 2)) as A. assert (E : forall a, a * a = Rabs a * Rabs a) by (intros a; rewrite <- Rabs_mult, Rabs_pos_eq by nra; reflexivity).
  pose proof (Rabs_pos (sin (d / 2))). assert (Q : sin (d / 2) * sin (d / 2) <= d / 2 * (d / 2)) by (rewrite (E (sin (d / 2))), (E (d / 2)); apply Rmult_le_compat; lra).
  lra.
Qed.
Lemma cos_half d : cos d = 1 - 2 * (sin (d / 2) * sin (d / 2)).
Proof. replace d with (2 * (d / 2)) at 1 by field. rewrite cos_2a_sin. ring. Qed.

Definition sq3 (a b : R * R * R) : R :=
  let '(a1, a2, a3) := a in let '(b1, b2, b3) := b in (a1 - b1) * (a1 - b1) + (a2 - b2) * (a2 - b2) + (a3 - b3) * (a3 - b3).
Lemma dist3_sq a b : dist3 a b = sqrt (sq3 a b).
Proof. destruct a as [[a1 a2] a3], b as [[b1 b2] b3]. reflexivity. Qed.

Lemma polar_dist s r t p r' t' p' : s * s = 1 ->
  sq3 (polar s r t p) (polar s r' t' p') = (r - r') * (r - r') + r * r' *
    ((2 * sin ((t - t') / 2)) * (2 * sin ((t - t') / 2)) + sin t * sin t' * ((2 * sin ((p - p') / 2)) * (2 * sin ((p - p') / 2)))).
Proof.
  intros S. pose proof (cos_half (t - t')) as A. pose proof (cos_half (p - p')) as B. rewrite cos_minus in A, B.
  pose proof (sin2_cos2 t) as T1. pose proof (sin2_cos2 t') as T2. pose proof (sin2_cos2 p) as P1. pose proof (sin2_cos2 p') as P2. unfold Rsqr in *.
  set (a := sin ((t - t') / 2)) in *. set (b := sin ((p - p') / 2)) in *.
  unfold sq3, polar.
  replace ((2 * a) * (2 * a)) with (2 - 2 * (cos t * cos t' + sin t * sin t')) by lra.
  replace ((2 * b) * (2 * b)) with (2 - 2 * (cos p * cos p' + sin p * sin p')) by lra.
  clear A B. set (ct := cos t) in *. set (st := sin t) in *. set (ct' := cos t') in *. set (st' := sin t') in *.
  set (cp := cos p) in *. set (sp := sin p) in *. set (cp' := cos p') in *. set (sp' := sin p') in *. clearbody ct st ct' st' cp sp cp' sp' a b.
  transitivity (s * s * (r * r * (st * st) * (sp * sp + cp * cp)) + s * s * (r' * r' * (st' * st') * (sp' * sp' + cp' * cp')) - s * s * (2 * r * r' * st * st' * (cp * cp' + sp * sp'))
     + r * r * (ct * ct) + r' * r' * (ct' * ct') - 2 * r * r' * ct * ct'); [ring|].
  rewrite S, P1, P2.
  transitivity (r * r * (st * st + ct * ct) + r' * r' * (st' * st' + ct' * ct') - 2 * r * r' * (ct * ct' + st * st' * (cp * cp' + sp * sp'))); [ring|].
  rewrite T1, T2. ring.
Qed.

Lemma polar_dist_le s r t p r' t' p' : s * s = 1 -> 0 <= r' <= r -> 0 <= t <= PI -> 0 <= t' <= PI ->
  sq3 (polar s r t p) (polar s r' t' p') <= (r - r') * (r - r') + r * r * ((t - t') * (t - t') + (p - p') * (p - p')).
Proof.
  intros S RR T T'. rewrite polar_dist by exact S. apply Rplus_le_compat_l.
  pose proof (sin_half_sq (t - t')) as A. pose proof (sin_half_sq (p - p')) as B.
  pose proof (sin_ge_0 t (proj1 T) (proj2 T)) as S1. pose proof (sin_ge_0 t' (proj1 T') (proj2 T')) as S2.
  pose proof (SIN_bound t) as [_ U1]. pose proof (SIN_bound t') as [_ U2].
  set (a := 2 * sin ((t - t') / 2) * (2 * sin ((t - t') / 2))) in *. set (b := 2 * sin ((p - p') / 2) * (2 * sin ((p - p') / 2))) in *.
  assert (B0 : 0 <= b) by (unfold b; apply Rle_0_sqr). assert (A0 : 0 <= a) by (unfold a; apply Rle_0_sqr).
  assert (K : 0 <= sin t * sin t' <= 1).
  { split; [apply Rmult_le_pos; assumption|]. replace 1 with (1 * 1) by ring. apply Rmult_le_compat; assumption. }
  assert (K2 : sin t * sin t' * b <= 1 * b) by (apply Rmult_le_compat_r; lra).
  assert (K3 : 0 <= sin t * sin t' * b) by (apply Rmult_le_pos; lra).
  apply Rmult_le_compat; [apply Rmult_le_pos; lra|lra|apply Rmult_le_compat_l; lra|lra].
Qed.
