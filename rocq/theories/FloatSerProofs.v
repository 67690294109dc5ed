(** Proofs about [FloatSerModel]. *)
From Verif Require Import Base BitArrayModel BitArrayProofs FloatSerModel FloatSerSpec.
From Coq Require Import Reals Lra Psatz.
From Flocq Require Import Core IEEE754.BinarySingleNaN Relative Plus_error.
Local Open Scope Z_scope.

Section Fmt.
Context (prec emax : Z) (Hp : Prec_gt_0 prec) (He : Prec_lt_emax prec emax).
Notation fl := (binary_float prec emax).
Notation fexp := (SpecFloat.fexp prec emax).
Notation emin := (SpecFloat.emin prec emax).
Definition rnd (x : R) : R := round radix2 fexp ZnearestE x.
Definition u : R := bpow radix2 (- prec).
Definition big : R := bpow radix2 emax.
Definition tiny : R := bpow radix2 (emin + prec - 1).

Local Instance vexp : Valid_exp fexp := FLT_exp_valid emin prec.

Lemma rnd_le x y : (x <= y)%R -> (rnd x <= rnd y)%R.
Proof. apply round_le; typeclasses eauto. Qed.
Lemma rnd_0 : rnd 0 = 0%R.
Proof. apply round_0; typeclasses eauto. Qed.
Lemma rnd_B (x : fl) : rnd (B2R x) = B2R x.
Proof. apply round_generic; [typeclasses eauto|apply generic_format_B2R]. Qed.
Lemma fmt_B (x : fl) : generic_format radix2 fexp (B2R x).
Proof. apply generic_format_B2R. Qed.
Lemma fmt_rnd x : generic_format radix2 fexp (rnd x).
Proof. apply generic_format_round; typeclasses eauto. Qed.
Lemma rnd_rnd x : rnd (rnd x) = rnd x.
Proof. apply round_generic; [typeclasses eauto|apply fmt_rnd]. Qed.

Lemma fmt_pow k : emin <= k -> generic_format radix2 fexp (bpow radix2 k).
Proof. intros H. apply generic_format_FLT_bpow; [apply Hp|exact H]. Qed.
Lemma emin_neg : 3 <= emax -> emin <= - prec.
Proof. unfold SpecFloat.emin. lia. Qed.
Lemma emin_neg0 : emin <= 0.
Proof. unfold SpecFloat.emin. pose proof Hp as A. pose proof He as B. unfold Prec_gt_0, Prec_lt_emax in *. lia. Qed.
Lemma fmt_int k : Z.abs k < 2 ^ prec -> generic_format radix2 fexp (IZR k).
Proof.
  intros H. apply generic_format_FLT. exists (Float radix2 k 0); simpl.
  - unfold F2R; simpl. ring.
  - exact H.
  - apply emin_neg0.
Qed.
Lemma rnd_int k : Z.abs k < 2 ^ prec -> rnd (IZR k) = IZR k.
Proof. intros H. apply round_generic; [typeclasses eauto|apply fmt_int; exact H]. Qed.
Lemma rnd_pow k : emin <= k -> rnd (bpow radix2 k) = bpow radix2 k.
Proof. intros H. apply round_generic; [typeclasses eauto|apply fmt_pow; exact H]. Qed.

Lemma u_half : (/ 2 * bpow radix2 (- prec + 1) = u)%R.
Proof. unfold u. rewrite bpow_plus. change (bpow radix2 1) with 2%R. lra. Qed.
Lemma u_pos : (0 < u)%R.
Proof. apply bpow_gt_0. Qed.

(** relative errors *)
Lemma rnd_err x : (tiny <= Rabs x)%R -> exists e, (Rabs e <= u)%R /\ rnd x = (x * (1 + e))%R.
Proof.
  intros H. destruct (relative_error_N_FLT_ex radix2 emin prec Hp (fun n => negb (Z.even n)) x H) as (e & A & B).
  exists e. rewrite u_half in A. split; [exact A|exact B].
Qed.
Lemma rnd_add_err x y : generic_format radix2 fexp x -> generic_format radix2 fexp y ->
  exists e, (Rabs e <= u)%R /\ rnd (x + y) = ((x + y) * (1 + e))%R.
Proof.
  intros X Y. destruct (FLT_plus_error_N_ex radix2 emin prec (fun n => negb (Z.even n)) x y X Y) as (e & A & B).
  exists e. split; [|exact B].
  eapply Rle_trans; [exact A|]. unfold u_ro. rewrite u_half. pose proof u_pos.
  apply Rmult_le_reg_r with (1 + u)%R; [lra|]. unfold Rdiv. rewrite Rmult_assoc, Rinv_l by lra. nra.
Qed.

(** the operations *)
Lemma fsub_R (x y : fl) : is_finite x = true -> is_finite y = true -> (Rabs (rnd (B2R x - B2R y)) < big)%R ->
  B2R (fsub prec emax Hp He x y) = rnd (B2R x - B2R y) /\ is_finite (fsub prec emax Hp He x y) = true.
Proof.
  intros X Y L. pose proof (Bminus_correct prec emax Hp He mode_NE x y X Y) as C.
  cbn [round_mode] in C. unfold rnd, big in L. rewrite (Rlt_bool_true _ _ L) in C. destruct C as (C1 & C2 & _). split; [exact C1|exact C2].
Qed.
Lemma fadd_R (x y : fl) : is_finite x = true -> is_finite y = true -> (Rabs (rnd (B2R x + B2R y)) < big)%R ->
  B2R (fadd prec emax Hp He x y) = rnd (B2R x + B2R y) /\ is_finite (fadd prec emax Hp He x y) = true.
Proof.
  intros X Y L. pose proof (Bplus_correct prec emax Hp He mode_NE x y X Y) as C.
  cbn [round_mode] in C. unfold rnd, big in L. rewrite (Rlt_bool_true _ _ L) in C. destruct C as (C1 & C2 & _). split; [exact C1|exact C2].
Qed.
Lemma fmul_R (x y : fl) : is_finite x = true -> is_finite y = true -> (Rabs (rnd (B2R x * B2R y)) < big)%R ->
  B2R (fmul prec emax Hp He x y) = rnd (B2R x * B2R y) /\ is_finite (fmul prec emax Hp He x y) = true.
Proof.
  intros X Y L. pose proof (Bmult_correct prec emax Hp He mode_NE x y) as C.
  cbn [round_mode] in C. unfold rnd, big in L. rewrite (Rlt_bool_true _ _ L) in C. destruct C as (C1 & C2 & _).
  rewrite X, Y in C2. split; [exact C1|exact C2].
Qed.
Lemma fdiv_R (x y : fl) : is_finite x = true -> (B2R y <> 0)%R -> (Rabs (rnd (B2R x / B2R y)) < big)%R ->
  B2R (fdiv prec emax Hp He x y) = rnd (B2R x / B2R y) /\ is_finite (fdiv prec emax Hp He x y) = true.
Proof.
  intros X Y L. pose proof (Bdiv_correct prec emax Hp He mode_NE x y Y) as C.
  cbn [round_mode] in C. unfold rnd, big in L. rewrite (Rlt_bool_true _ _ L) in C. destruct C as (C1 & C2 & _).
  rewrite X in C2. split; [exact C1|exact C2].
Qed.
Lemma of_ull_R n : (Rabs (rnd (IZR n)) < big)%R ->
  B2R (of_ull prec emax Hp He n) = rnd (IZR n) /\ is_finite (of_ull prec emax Hp He n) = true.
Proof.
  intros L. pose proof (binary_normalize_correct prec emax Hp He mode_NE n 0 false) as C.
  cbv zeta in C. replace (F2R (Float radix2 n 0)) with (IZR n) in C by (unfold F2R; simpl; ring).
  cbn [round_mode] in C. unfold rnd, big in L. rewrite (Rlt_bool_true _ _ L) in C. destruct C as (C1 & C2 & _). split; [exact C1|exact C2].
Qed.

Lemma trunc_R (x : fl) : Btrunc x = Ztrunc (B2R x).
Proof.
  apply eq_IZR. rewrite Btrunc_correct by exact He.
  unfold round, scaled_mantissa, cexp, FIX_exp, F2R. simpl. rewrite Rmult_1_r, Rmult_1_r. reflexivity.
Qed.

Lemma to_ull_R (x : fl) : is_finite x = true -> (0 <= B2R x < IZR (2 ^ 64))%R ->
  to_ull x = Some (Zfloor (B2R x)).
Proof.
  intros F [A B]. assert (E : Btrunc x = Zfloor (B2R x)) by (rewrite trunc_R; apply Ztrunc_floor; exact A).
  assert (0 <= Zfloor (B2R x)) by (apply Zfloor_lub; exact A).
  assert (Zfloor (B2R x) < 2 ^ 64).
  { apply lt_IZR. apply Rle_lt_trans with (2 := B). apply Zfloor_lb. }
  destruct x as [s|s| |s m e H1]; try discriminate F; unfold to_ull; cbv zeta; rewrite E;
    replace ((0 <=? Zfloor _) && (Zfloor _ <? 2 ^ 64)) with true by (symmetry; apply andb_true_intro; split; [apply Z.leb_le|apply Z.ltb_lt]; assumption);
    reflexivity.
Qed.
(** ** Bounds *)

Lemma scale a e b : (0 <= a)%R -> (Rabs e <= b)%R -> (a * (1 - b) <= a * (1 + e) <= a * (1 + b))%R.
Proof. intros A B. apply Rabs_le_inv in B. nra. Qed.

Lemma u_small : 8 <= prec -> (u <= / 256)%R.
Proof.
  intros H. unfold u. replace (/ 256)%R with (bpow radix2 (- 8)) by (simpl; lra). apply bpow_le. lia.
Qed.

Lemma tiny_eq : tiny = bpow radix2 (2 - emax).
Proof. unfold tiny, SpecFloat.emin. f_equal. lia. Qed.

Section Decl.
Context (mn mx : fl) (n : nat) (D : declared prec emax mn mx n).
Notation mnr := (B2R mn).
Notation mxr := (B2R mx).
Notation W := (B2R mx - B2R mn)%R.
Definition N : Z := 2 ^ Z.of_nat n - 1.

Lemma us : (0 < u <= / 256)%R.
Proof. split; [apply u_pos|apply u_small; apply (dc_p _ _ _ _ _ D)]. Qed.
Lemma N_range : 1 <= N < 2 ^ (prec - 2).
Proof.
  pose proof (dc_n _ _ _ _ _ D). unfold N.
  assert (2 ^ 1 <= 2 ^ Z.of_nat n) by (apply Z.pow_le_mono_r; lia).
  assert (2 ^ Z.of_nat n <= 2 ^ (prec - 2)) by (apply Z.pow_le_mono_r; lia). lia.
Qed.
Lemma pow_eq : (2 ^ n = IZR N + 1)%R.
Proof. unfold N. rewrite minus_IZR, <- (pow_IZR 2). simpl (IZR 2). lra. Qed.
Lemma N_le : (1 <= IZR N)%R.
Proof. apply IZR_le. apply N_range. Qed.
(** four times the number of codes is below the precision *)
Lemma N_u : (4 * (IZR N + 1) * u <= 1)%R.
Proof.
  pose proof (dc_n _ _ _ _ _ D) as H. rewrite <- pow_eq. replace (2 ^ n)%R with (bpow radix2 (Z.of_nat n)).
  2: { rewrite bpow_powerRZ, <- pow_powerRZ. reflexivity. }
  replace 4%R with (bpow radix2 2) by (simpl; lra). unfold u. rewrite <- !bpow_plus.
  replace 1%R with (bpow radix2 0) by reflexivity. apply bpow_le. lia.
Qed.
Lemma abs_N : Z.abs N < 2 ^ prec.
Proof.
  pose proof N_range. pose proof (dc_n _ _ _ _ _ D).
  assert (2 ^ (prec - 2) <= 2 ^ prec) by (apply Z.pow_le_mono_r; lia). lia.
Qed.
Lemma emax_ge : 9 <= emax.
Proof. pose proof (dc_p _ _ _ _ _ D). pose proof He as B. unfold Prec_lt_emax in B. lia. Qed.

Lemma W_pos : (0 < W)%R.
Proof. pose proof (dc_lt _ _ _ _ _ D). lra. Qed.
Lemma W_step : (2 * tiny * (IZR N + 1) <= W)%R.
Proof.
  rewrite <- pow_eq, tiny_eq. pose proof (dc_step _ _ _ _ _ D) as H.
  replace (2 * bpow radix2 (2 - emax))%R with (bpow radix2 (3 - emax)); [exact H|].
  replace (3 - emax) with (1 + (2 - emax)) by lia. rewrite bpow_plus. reflexivity.
Qed.
Lemma tiny_pos : (0 < tiny)%R.
Proof. apply bpow_gt_0. Qed.
Definition quarter : R := bpow radix2 (emax - 2).
Lemma quarter_big : (4 * quarter = big)%R.
Proof.
  unfold quarter, big. replace emax with (2 + (emax - 2)) at 2 by lia. rewrite bpow_plus.
  replace (bpow radix2 2) with 4%R by (simpl; lra). reflexivity.
Qed.
Lemma quarter_ge : (1 <= quarter)%R.
Proof. pose proof emax_ge. unfold quarter. replace 1%R with (bpow radix2 0) by reflexivity. apply bpow_le. lia. Qed.
Lemma lims : (- quarter <= mnr)%R /\ (mxr <= quarter)%R.
Proof.
  pose proof (Rabs_le_inv _ _ (dc_amn _ _ _ _ _ D)). pose proof (Rabs_le_inv _ _ (dc_amx _ _ _ _ _ D)).
  unfold quarter. lra.
Qed.
Lemma N_quarter : (IZR N + 1 <= quarter)%R.
Proof.
  rewrite <- pow_eq. replace (2 ^ n)%R with (bpow radix2 (Z.of_nat n)).
  2: { rewrite bpow_powerRZ, <- pow_powerRZ. reflexivity. }
  apply bpow_le. pose proof (dc_n _ _ _ _ _ D). pose proof He as B. unfold Prec_lt_emax in B. lia.
Qed.

(** the number of intervals *)
Lemma num_intervals_small k : (k <= 53)%nat -> num_intervals k = Some (2 ^ Z.of_nat k - 1).
Proof.
  intros H.
  assert (A : forallb (fun k => match num_intervals k with Some x => x =? 2 ^ Z.of_nat k - 1 | None => false end) (seq 0 54) = true)
    by (vm_compute; reflexivity).
  rewrite forallb_forall in A. specialize (A k). destruct (num_intervals k).
  - f_equal. apply Z.eqb_eq. apply A. apply in_seq. lia.
  - discriminate A. apply in_seq. lia.
Qed.

(** the range and the resolution *)
Definition Rg : R := rnd W.
Definition rs : R := rnd (Rg / IZR N).

Lemma Rg_err : exists e, (Rabs e <= u)%R /\ Rg = (W * (1 + e))%R.
Proof.
  unfold Rg, Rminus. apply rnd_add_err; [apply fmt_B|]. apply generic_format_opp. apply fmt_B.
Qed.
Lemma Rg_bounds : (W * (1 - u) <= Rg <= W * (1 + u))%R /\ (0 < Rg <= 2 * quarter)%R.
Proof.
  destruct Rg_err as (e & A & B). pose proof us. pose proof W_pos. pose proof lims.
  assert (S := scale W e u (Rlt_le _ _ W_pos) A). rewrite <- B in S. split; [exact S|]. split; [nra|].
  unfold Rg. replace (2 * quarter)%R with (rnd (2 * quarter)).
  - apply rnd_le. lra.
  - unfold quarter. replace (2 * bpow radix2 (emax - 2))%R with (bpow radix2 (emax - 1)).
    + apply rnd_pow. pose proof emax_ge. unfold SpecFloat.emin. pose proof (dc_p _ _ _ _ _ D). lia.
    + replace (emax - 1) with (1 + (emax - 2)) by lia. rewrite bpow_plus. reflexivity.
Qed.
Lemma rs_err : exists e, (Rabs e <= u)%R /\ rs = (Rg / IZR N * (1 + e))%R.
Proof.
  apply rnd_err. pose proof Rg_bounds as [A B]. pose proof N_le. pose proof W_step. pose proof us. pose proof tiny_pos.
  rewrite Rabs_pos_eq.
  - apply Rmult_le_reg_r with (IZR N); [lra|]. unfold Rdiv. rewrite Rmult_assoc, Rinv_l by lra. nra.
  - apply Rmult_le_pos; [lra|]. apply Rlt_le, Rinv_0_lt_compat. lra.
Qed.
Lemma rs_bounds : (tiny <= rs)%R /\ (W * (1 - 2 * u) <= rs * IZR N <= W * (1 + (201/100) * u))%R /\ (rs <= 3 * quarter)%R.
Proof.
  pose proof Rg_bounds as [A B]. pose proof N_le as HN. pose proof us as U. pose proof W_pos as HW.
  destruct rs_err as (e & E1 & E2).
  assert (Q : (0 <= Rg / IZR N)%R) by (apply Rmult_le_pos; [lra|]; apply Rlt_le, Rinv_0_lt_compat; lra).
  assert (S := scale (Rg / IZR N) e u Q E1). rewrite <- E2 in S.
  assert (E : (Rg / IZR N * IZR N = Rg)%R) by (field; lra).
  assert (S1 : (Rg * (1 - u) <= rs * IZR N <= Rg * (1 + u))%R).
  { split.
    - apply Rle_trans with (Rg / IZR N * (1 - u) * IZR N)%R; [rewrite <- E at 1; nra|]. apply Rmult_le_compat_r; lra.
    - apply Rle_trans with (Rg / IZR N * (1 + u) * IZR N)%R; [apply Rmult_le_compat_r; lra|]. rewrite <- E at 2. nra. }
  assert (S2 : (W * (1 - 2 * u) <= rs * IZR N <= W * (1 + (201/100) * u))%R) by nra.
  split; [|split; [exact S2|]].
  - pose proof W_step. pose proof tiny_pos.
    apply Rmult_le_reg_r with (IZR N); [lra|]. nra.
  - pose proof lims. apply Rmult_le_reg_r with (IZR N); [lra|]. pose proof quarter_ge. nra.
Qed.

Definition res : fl := fdiv prec emax Hp He (fsub prec emax Hp He mx mn) (of_ull prec emax Hp He N).
Lemma res_R : B2R res = rs /\ is_finite res = true.
Proof.
  pose proof Rg_bounds as [A B]. pose proof quarter_big. pose proof N_le. pose proof N_quarter. pose proof quarter_ge.
  destruct (fsub_R mx mn (dc_mx _ _ _ _ _ D) (dc_mn _ _ _ _ _ D)) as [S1 S2].
  { fold Rg. rewrite Rabs_pos_eq; lra. }
  fold Rg in S1.
  destruct (of_ull_R N) as [O1 O2].
  { rewrite rnd_int by apply abs_N. rewrite Rabs_pos_eq; lra. }
  rewrite rnd_int in O1 by apply abs_N.
  destruct (fdiv_R (fsub prec emax Hp He mx mn) (of_ull prec emax Hp He N) S2) as [D1 D2].
  - rewrite O1. lra.
  - rewrite S1, O1. fold rs. pose proof rs_bounds as (R1 & _ & R3). pose proof tiny_pos. rewrite Rabs_pos_eq; lra.
  - rewrite S1, O1 in D1. split; [exact D1|exact D2].
Qed.

(** ** Encoding *)

(** [x] is a finite value within the limits *)
Section Enc.
Context (x : fl) (Fx : is_finite x = true) (Lx : (mnr <= B2R x <= mxr)%R).
Definition dd : R := rnd (B2R x - mnr).
Definition qq : R := rnd (dd / rs).

Lemma dd_err : exists e, (Rabs e <= u)%R /\ dd = ((B2R x - mnr) * (1 + e))%R.
Proof. unfold dd, Rminus. apply rnd_add_err; [apply fmt_B|]. apply generic_format_opp. apply fmt_B. Qed.
Lemma dd_bounds : (0 <= dd <= Rg)%R.
Proof. split; [rewrite <- rnd_0; apply rnd_le; lra|apply rnd_le; lra]. Qed.
Lemma qq_bounds : (0 <= qq < IZR N + 1)%R.
Proof.
  pose proof dd_bounds. pose proof rs_bounds as (R1 & R2 & R3). pose proof tiny_pos. pose proof us. pose proof W_pos.
  pose proof Rg_bounds as [G1 G2]. pose proof N_le. pose proof N_u.
  split.
  - rewrite <- rnd_0. apply rnd_le. apply Rmult_le_pos; [lra|]. apply Rlt_le, Rinv_0_lt_compat. lra.
  - apply Rle_lt_trans with (rnd (Rg / rs)).
    + apply rnd_le. apply Rmult_le_compat_r; [|lra]. apply Rlt_le, Rinv_0_lt_compat. lra.
    + destruct rs_err as (e & E1 & E2).
      assert (E : (Rg / rs = IZR N / (1 + e))%R).
      { rewrite E2. apply Rabs_le_inv in E1. field. lra. }
      assert (I : (/ 2 <= IZR N / (1 + e) /\ IZR N / (1 + e) * (1 - u) <= IZR N)%R).
      { apply Rabs_le_inv in E1. split.
        - apply Rmult_le_reg_r with (1 + e)%R; [lra|]. unfold Rdiv. rewrite Rmult_assoc, Rinv_l by lra. nra.
        - apply Rmult_le_reg_r with (1 + e)%R; [lra|].
          replace (IZR N / (1 + e) * (1 - u) * (1 + e))%R with (IZR N * (1 - u))%R by (field; lra). nra. }
      destruct (rnd_err (Rg / rs)) as (e' & E3 & E4).
      { rewrite E, Rabs_pos_eq by lra. apply Rle_trans with (/ 2)%R; [|lra]. rewrite tiny_eq.
        replace (/ 2)%R with (bpow radix2 (-1)) by (simpl; lra). apply bpow_le. pose proof emax_ge. lia. }
      rewrite E4, E. assert (S := scale (IZR N / (1 + e)) e' u ltac:(lra) E3).
      apply Rle_lt_trans with (1 := proj2 S).
      apply Rmult_lt_reg_r with (1 - u)%R; [lra|].
      replace (IZR N / (1 + e) * (1 + u) * (1 - u))%R with ((IZR N / (1 + e) * (1 - u)) * (1 + u))%R by ring.
      nra.
Qed.

Definition code : Z := Zfloor qq.
Lemma code_range : 0 <= code <= N.
Proof.
  pose proof qq_bounds as [A B]. split; [apply Zfloor_lub; exact A|].
  assert (code < N + 1); [|lia]. apply lt_IZR. rewrite plus_IZR. apply Rle_lt_trans with (2 := B). apply Zfloor_lb.
Qed.

Lemma encode_R : to_ull (fdiv prec emax Hp He (fsub prec emax Hp He x mn) res) = Some code.
Proof.
  pose proof dd_bounds. pose proof Rg_bounds as [_ G]. pose proof quarter_big. pose proof quarter_ge. pose proof qq_bounds.
  pose proof N_quarter. pose proof rs_bounds as (R1 & _). pose proof tiny_pos.
  destruct (fsub_R x mn Fx (dc_mn _ _ _ _ _ D)) as [S1 S2].
  { fold dd. rewrite Rabs_pos_eq; lra. }
  fold dd in S1. destruct res_R as [Q1 Q2].
  destruct (fdiv_R (fsub prec emax Hp He x mn) res S2) as [D1 D2].
  - rewrite Q1. lra.
  - rewrite S1, Q1. fold qq. rewrite Rabs_pos_eq; lra.
  - rewrite S1, Q1 in D1. fold qq in D1. unfold code. rewrite <- D1. apply to_ull_R; [exact D2|]. rewrite D1. split; [lra|].
    apply Rlt_le_trans with (IZR N + 1)%R; [lra|]. rewrite <- plus_IZR. apply IZR_le. unfold N.
    pose proof (dc_n _ _ _ _ _ D). pose proof (dc_p _ _ _ _ _ D).
    assert (2 ^ Z.of_nat n <= 2 ^ 64) by (apply Z.pow_le_mono_r; lia). lia.
Qed.
End Enc.

(** ** Decoding *)

Definition ff (c : Z) : R := rnd (rs * IZR c).
Definition val (c : Z) : R := rnd (mnr + ff c).

Lemma ff_err c : 0 <= c -> exists e, (Rabs e <= u)%R /\ ff c = (rs * IZR c * (1 + e))%R.
Proof.
  intros C. destruct (Z.eq_dec c 0) as [->|Z].
  - exists 0%R. pose proof us. rewrite Rabs_R0. split; [lra|]. unfold ff. rewrite Rmult_0_r, rnd_0. ring.
  - apply rnd_err. pose proof rs_bounds as (R1 & _). pose proof tiny_pos. assert (1 <= IZR c)%R by (apply IZR_le; lia).
    rewrite Rabs_pos_eq; nra.
Qed.
Lemma rc_bounds c : 0 <= c <= N -> (0 <= rs * IZR c <= W * (1 + (201/100) * u))%R.
Proof.
  intros [C1 C2]. apply IZR_le in C1. apply IZR_le in C2. pose proof rs_bounds as (R1 & R2 & _). pose proof tiny_pos.
  split; [nra|]. apply Rle_trans with (2 := proj2 R2). nra.
Qed.
Lemma ff_bounds c : 0 <= c <= N -> (0 <= ff c <= W * (1 + (302/100) * u))%R.
Proof.
  intros C. destruct (ff_err c (proj1 C)) as (e & E1 & E2). pose proof (rc_bounds c C) as B. pose proof us. pose proof W_pos.
  assert (S := scale _ e u (proj1 B) E1). rewrite <- E2 in S. nra.
Qed.
Lemma val_bounds c : 0 <= c <= N -> (mnr <= val c)%R /\ (Rabs (val c) < big)%R.
Proof.
  intros C. pose proof (ff_bounds c C) as B. pose proof us. pose proof W_pos. pose proof lims. pose proof quarter_big. pose proof quarter_ge.
  assert (L : (mnr <= val c)%R) by (rewrite <- (rnd_B mn); apply rnd_le; lra).
  split; [exact L|]. apply Rabs_lt. split; [lra|].
  apply Rle_lt_trans with (2 * quarter)%R; [|lra].
  unfold val. replace (2 * quarter)%R with (rnd (2 * quarter)).
  - apply rnd_le. nra.
  - unfold quarter. replace (2 * bpow radix2 (emax - 2))%R with (bpow radix2 (emax - 1)).
    + apply rnd_pow. pose proof emax_ge. unfold SpecFloat.emin. pose proof (dc_p _ _ _ _ _ D). lia.
    + replace (emax - 1) with (1 + (emax - 2)) by lia. rewrite bpow_plus. reflexivity.
Qed.
Lemma val_err c : 0 <= c <= N -> exists e, (Rabs e <= u)%R /\ val c = ((mnr + ff c) * (1 + e))%R.
Proof. intros C. apply rnd_add_err; [apply fmt_B|apply fmt_rnd]. Qed.

Lemma decode_R c : 0 <= c <= N ->
  B2R (fadd prec emax Hp He mn (fmul prec emax Hp He res (of_ull prec emax Hp He c))) = val c /\
  is_finite (fadd prec emax Hp He mn (fmul prec emax Hp He res (of_ull prec emax Hp He c))) = true.
Proof.
  intros C. pose proof abs_N. assert (AC : Z.abs c < 2 ^ prec) by lia.
  assert (0 <= IZR c <= IZR N)%R by (split; apply IZR_le; lia).
  pose proof quarter_big. pose proof N_quarter. pose proof quarter_ge. pose proof us. pose proof W_pos. pose proof lims.
  destruct (of_ull_R c) as [O1 O2].
  { rewrite rnd_int by exact AC. rewrite Rabs_pos_eq; lra. }
  rewrite rnd_int in O1 by exact AC. destruct res_R as [Q1 Q2]. pose proof (ff_bounds c C).
  destruct (fmul_R res (of_ull prec emax Hp He c) Q2 O2) as [M1 M2].
  { rewrite Q1, O1. fold (ff c). rewrite Rabs_pos_eq; nra. }
  rewrite Q1, O1 in M1. fold (ff c) in M1.
  destruct (fadd_R mn (fmul prec emax Hp He res (of_ull prec emax Hp He c)) (dc_mn _ _ _ _ _ D) M2) as [A1 A2].
  { rewrite M1. fold (val c). apply val_bounds. exact C. }
  rewrite M1 in A1. split; [exact A1|exact A2].
Qed.

Lemma abs_lims : (W <= Rabs mnr + Rabs mxr)%R.
Proof. pose proof (Rle_abs mxr). pose proof (Rle_abs (- mnr)). rewrite Rabs_Ropp in *. lra. Qed.

(** any code decodes within the limits, up to rounding *)
Lemma val_upper c : 0 <= c <= N -> (val c <= mxr + slack prec mnr mxr)%R.
Proof.
  intros C. destruct (val_err c C) as (e & E1 & E2). pose proof (ff_bounds c C) as B. pose proof us. pose proof W_pos.
  pose proof abs_lims. unfold slack. change (bpow radix2 (- prec)) with u.
  set (M := (Rabs mnr + Rabs mxr)%R) in *.
  assert (A : (Rabs (mnr + ff c) <= 2 * M)%R).
  { apply Rabs_le. pose proof (Rabs_pos mnr). pose proof (Rabs_pos mxr). pose proof (Rle_abs mxr). pose proof (Rle_abs (- mnr)). rewrite Rabs_Ropp in *.
    unfold M in *. split; nra. }
  assert (P : (Rabs ((mnr + ff c) * e) <= 2 * M * u)%R).
  { rewrite Rabs_mult. apply Rmult_le_compat; try apply Rabs_pos; assumption. }
  apply Rabs_le_inv in P. rewrite E2. nra.
Qed.

Lemma val_mono c c' : 0 <= c <= c' -> (val c <= val c')%R.
Proof.
  intros [A B]. apply IZR_le in B. pose proof rs_bounds as (R1 & _). pose proof tiny_pos.
  apply rnd_le. apply Rplus_le_compat_l. apply rnd_le. nra.
Qed.

(** ** Round trip *)
Lemma code_close x (Lx : (mnr <= B2R x <= mxr)%R) :
  let t := (B2R x - mnr)%R in let c := code x in
  (- (rs + (1/100) * u * W) <= rs * IZR c - t * (1 - 2 * u) )%R /\ (rs * IZR c <= t * (1 + (201/100) * u))%R.
Proof.
  intros t c. pose proof us as U. pose proof W_pos as HW. pose proof rs_bounds as (R1 & R2 & R3). pose proof tiny_pos as T.
  pose proof (dd_bounds x Lx) as DB. destruct (dd_err x) as (e1 & A1 & A2). fold t in A2.
  pose proof (code_range x Lx) as CR. fold c in CR.
  assert (T0 : (0 <= t <= W)%R) by (unfold t; lra).
  assert (S1 := scale t e1 u (proj1 T0) A1). rewrite <- A2 in S1.
  pose proof (Zfloor_lb (qq x)) as F1. pose proof (Zfloor_ub (qq x)) as F2. fold (code x) in F1, F2. fold c in F1, F2.
  destruct (Z.eq_dec c 0) as [C0|C0].
  - rewrite C0, Rmult_0_r. split; [|nra].
    assert (L : (dd x < rs)%R).
    { destruct (Rlt_or_le (dd x) rs) as [L|L]; [exact L|exfalso].
      assert (1 <= qq x)%R.
      { replace 1%R with (rnd 1). { apply rnd_le. apply Rmult_le_reg_r with rs; [lra|]. unfold Rdiv. rewrite Rmult_assoc, Rinv_l by lra. lra. }
        change 1%R with (bpow radix2 0). apply rnd_pow. apply emin_neg0. }
      rewrite C0 in F2. simpl in F2. lra. }
    assert (t * (1 - u) <= rs)%R by lra. nra.
  - assert (1 <= IZR c)%R by (apply IZR_le; lia).
    assert (Q0 : (/ 2 <= dd x / rs)%R).
    { destruct (Rle_or_lt (/ 2) (dd x / rs)) as [L|L]; [exact L|exfalso].
      assert (qq x <= / 2)%R; [|lra].
      unfold qq. replace (/ 2)%R with (rnd (/ 2)); [apply rnd_le; lra|].
      replace (/ 2)%R with (bpow radix2 (-1)) by (simpl; lra). apply rnd_pow. pose proof emax_ge. pose proof (dc_p _ _ _ _ _ D). unfold SpecFloat.emin. lia. }
    destruct (rnd_err (dd x / rs)) as (e2 & B1 & B2).
    { rewrite Rabs_pos_eq by lra. apply Rle_trans with (/ 2)%R; [|lra]. rewrite tiny_eq.
      replace (/ 2)%R with (bpow radix2 (-1)) by (simpl; lra). apply bpow_le. pose proof emax_ge. lia. }
    fold (qq x) in B2.
    assert (E : (rs * qq x = dd x * (1 + e2))%R) by (rewrite B2; field; lra).
    assert (S2 := scale (dd x) e2 u (proj1 DB) B1). rewrite <- E in S2.
    assert (G1 : (rs * IZR c <= rs * qq x)%R) by (apply Rmult_le_compat_l; lra).
    assert (G2 : (rs * (qq x - 1) <= rs * IZR c)%R) by (apply Rmult_le_compat_l; lra).
    split; nra.
Qed.

Lemma roundtrip_R x (Lx : (mnr <= B2R x <= mxr)%R) :
  (Rabs (val (code x) - B2R x) <= step mnr mxr n + slack prec mnr mxr)%R.
Proof.
  pose proof us as U. pose proof W_pos as HW. pose proof rs_bounds as (R1 & R2 & R3). pose proof tiny_pos as T. pose proof N_le as HN.
  pose proof (code_range x Lx) as CR. destruct (code_close x Lx) as [K1 K2].
  destruct (ff_err (code x) (proj1 CR)) as (e1 & A1 & A2). destruct (val_err (code x) CR) as (e2 & B1 & B2).
  pose proof (rc_bounds _ CR) as RB. assert (S1 := scale _ e1 u (proj1 RB) A1). rewrite <- A2 in S1.
  set (c := code x) in *. set (t := (B2R x - mnr)%R) in *.
  assert (T0 : (0 <= t <= W)%R) by (unfold t; lra).
  unfold step, slack. change (bpow radix2 (- prec)) with u. rewrite pow_eq.
  replace (IZR N + 1 - 1)%R with (IZR N) by ring.
  assert (ST : (W / IZR N * IZR N = W)%R) by (field; lra).
  set (st := (W / IZR N)%R) in *.
  assert (ST0 : (0 < st <= W)%R).
  { split; [apply Rmult_lt_0_compat; [lra|apply Rinv_0_lt_compat; lra]|].
    apply Rmult_le_reg_r with (IZR N); [lra|]. rewrite ST. nra. }
  assert (RS : (rs <= st * (1 + (201/100) * u))%R).
  { apply Rmult_le_reg_r with (IZR N); [lra|]. apply Rle_trans with (1 := proj2 R2). rewrite <- ST. nra. }
  assert (F : (- (st + (52/10) * u * W) <= ff c - t <= (31/10) * u * W)%R).
  { split; nra. }
  pose proof abs_lims as AL. set (M := (Rabs mnr + Rabs mxr)%R) in *.
  assert (X : (Rabs (B2R x) <= M)%R).
  { unfold M. apply Rabs_le. pose proof (Rle_abs mxr). pose proof (Rle_abs (- mnr)). rewrite Rabs_Ropp in *.
    pose proof (Rabs_pos mnr). pose proof (Rabs_pos mxr). split; lra. }
  apply Rabs_le_inv in X.
  assert (Y : (Rabs (mnr + ff c) <= M + (11/10) * st + (52/10) * u * W)%R).
  { apply Rabs_le. unfold t in F. split; nra. }
  assert (P : (Rabs ((mnr + ff c) * e2) <= (M + (11/10) * st + (52/10) * u * W) * u)%R).
  { rewrite Rabs_mult. apply Rmult_le_compat; try apply Rabs_pos; assumption. }
  apply Rabs_le_inv in P. rewrite B2.
  assert (Z1 : (u * W <= u * M)%R) by (apply Rmult_le_compat_l; lra).
  assert (Z2 : (u * st <= u * M)%R) by (apply Rmult_le_compat_l; lra).
  assert (Z3 : (u * W * u <= / 256 * (u * M))%R).
  { rewrite (Rmult_comm (u * W)). apply Rmult_le_compat; try lra; apply Rmult_le_pos; lra. }
  replace ((mnr + ff c) * (1 + e2))%R with ((mnr + ff c) + (mnr + ff c) * e2)%R by ring.
  set (p := ((mnr + ff c) * e2)%R) in *. clearbody p.
  replace ((M + 11 / 10 * st + 52 / 10 * u * W) * u)%R with (u * M + 11 / 10 * (u * st) + 52 / 10 * (u * W * u))%R in P by ring.
  unfold t in *. apply Rabs_le. split; lra.
Qed.

(** ** The serializer object *)

Notation fwant x := (wanted mnr mxr x).
Notation ser := (fser prec emax).

Lemma Bltb_fin (x y : fl) : is_finite x = true -> is_finite y = true -> Bltb x y = Rlt_bool (B2R x) (B2R y).
Proof. intros X Y. apply Bltb_correct; assumption. Qed.

Lemma clamp_R (s : ser) x : fs_min _ _ s = mn -> fs_max _ _ s = mx -> is_nan x = false ->
  is_finite (fs_clamp prec emax s x) = true /\ B2R (fs_clamp prec emax s x) = fwant x.
Proof.
  intros E1 E2 NN. unfold fs_clamp. rewrite E1, E2. pose proof (dc_mn _ _ _ _ _ D) as F1. pose proof (dc_mx _ _ _ _ _ D) as F2.
  pose proof (dc_lt _ _ _ _ _ D) as L.
  assert (FIN : forall y : fl, is_finite y = true ->
            is_finite (if Bltb (if Bltb mx y then mx else y) mn then mn else if Bltb mx y then mx else y) = true /\
            B2R (if Bltb (if Bltb mx y then mx else y) mn then mn else if Bltb mx y then mx else y) = Rmax mnr (Rmin mxr (B2R y))).
  { intros y Fy. rewrite (Bltb_fin mx y F2 Fy). destruct (Rlt_bool_spec (B2R mx) (B2R y)) as [A|A].
    - rewrite (Bltb_fin mx mn F2 F1). rewrite Rlt_bool_false by lra. split; [exact F2|].
      rewrite Rmin_left by lra. rewrite Rmax_right by lra. reflexivity.
    - rewrite (Bltb_fin y mn Fy F1). rewrite Rmin_right by lra. destruct (Rlt_bool_spec (B2R y) (B2R mn)) as [B|B].
      + split; [exact F1|]. rewrite Rmax_left by lra. reflexivity.
      + split; [exact Fy|]. rewrite Rmax_right by lra. reflexivity. }
  destruct x as [sx|sx| |sx mxx ex Hx]; try discriminate NN.
  - apply (FIN (B754_zero sx) eq_refl).
  - destruct sx.
    + (* minus infinity *)
      replace (Bltb mx (B754_infinity true)) with false by (destruct mx as [[]|[]| |[]]; try discriminate F2; reflexivity).
      replace (Bltb (B754_infinity true) mn) with true by (destruct mn as [[]|[]| |[]]; try discriminate F1; reflexivity).
      split; [exact F1|reflexivity].
    + replace (Bltb mx (B754_infinity false)) with true by (destruct mx as [[]|[]| |[]]; try discriminate F2; reflexivity).
      rewrite (Bltb_fin mx mn F2 F1). rewrite Rlt_bool_false by lra. split; [exact F2|reflexivity].
  - apply (FIN (B754_finite sx mxx ex Hx) eq_refl).
Qed.

Lemma wanted_in (x : fl) : (mnr <= fwant x <= mxr)%R.
Proof.
  pose proof (dc_lt _ _ _ _ _ D) as L. unfold wanted.
  assert (G : forall y, (mnr <= Rmax mnr (Rmin mxr y) <= mxr)%R).
  { intros y. split; [apply Rmax_l|]. apply Rmax_lub; [lra|apply Rmin_l]. }
  destruct x as [sx|[]| |sx m e H]; try apply G; lra.
Qed.

Lemma res_eq (s : ser) : fs_min _ _ s = mn -> fs_max _ _ s = mx -> length (fs_bits _ _ s) = n ->
  fs_res prec emax Hp He s = Some res.
Proof.
  intros E1 E2 E3. unfold fs_res. rewrite E1, E2, E3. pose proof (dc_n _ _ _ _ _ D). pose proof (dc_p _ _ _ _ _ D).
  rewrite num_intervals_small by lia. fold N. pose proof N_range. destruct (Z.ltb_spec 0 N); [reflexivity|lia].
Qed.

Lemma code_ext x y : B2R x = B2R y -> code x = code y.
Proof. intros E. unfold code, qq, dd. rewrite E. reflexivity. Qed.

Lemma serialize_eq (s : ser) x : fs_min _ _ s = mn -> fs_max _ _ s = mx -> length (fs_bits _ _ s) = n -> is_nan x = false ->
  fserialize prec emax Hp He s x = Some (mk_fs prec emax mn mx (val_bits n (code (fs_clamp prec emax s x)))).
Proof.
  intros E1 E2 E3 NN. destruct (clamp_R s x E1 E2 NN) as [C1 C2]. pose proof (wanted_in x) as WI.
  unfold fserialize. rewrite (res_eq s E1 E2 E3). set (y := fs_clamp prec emax s x) in *.
  assert (L : (mnr <= B2R y <= mxr)%R) by (rewrite C2; exact WI).
  rewrite E1. rewrite (encode_R y C1 L). pose proof (code_range y L) as CR. pose proof N_range as NR.
  pose proof (dc_n _ _ _ _ _ D). pose proof (dc_p _ _ _ _ _ D).
  assert (2 ^ Z.of_nat n <= 2 ^ 51) by (apply Z.pow_le_mono_r; lia). change (2 ^ 51) with 2251799813685248 in *.
  unfold N in *. rewrite set_ullong_small by lia. rewrite E3.
  destruct (Z.ltb_spec (code y) (2 ^ Z.of_nat n)); [|lia]. rewrite E2. reflexivity.
Qed.

Lemma deserialize_eq (s : ser) : fs_min _ _ s = mn -> fs_max _ _ s = mx -> length (fs_bits _ _ s) = n ->
  exists v, fdeserialize prec emax Hp He s = Some v /\ is_finite v = true /\ B2R v = val (bits_val (fs_bits _ _ s)) /\
            0 <= bits_val (fs_bits _ _ s) <= N.
Proof.
  intros E1 E2 E3. unfold fdeserialize. rewrite (res_eq s E1 E2 E3), E1.
  pose proof (dc_n _ _ _ _ _ D). pose proof (dc_p _ _ _ _ _ D). rewrite to_ullong_val by lia.
  pose proof (bits_val_range (fs_bits _ _ s)) as B. rewrite E3 in B.
  assert (C : 0 <= bits_val (fs_bits _ _ s) <= N) by (unfold N; lia).
  destruct (decode_R _ C) as [R1 R2]. eexists. split; [reflexivity|]. split; [exact R2|]. split; [exact R1|exact C].
Qed.

End Decl.
End Fmt.
