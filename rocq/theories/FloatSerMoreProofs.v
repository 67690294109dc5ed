(** Round trips through the floating point serializer. *)
From Verif Require Import Base BitArrayModel BitArrayProofs FloatSerModel FloatSerSpec FloatSerProofs.
From Coq Require Import Reals Lra Psatz.
From Flocq Require Import Core IEEE754.BinarySingleNaN.
Local Open Scope Z_scope.

(** witnesses by computation *)
Lemma some_P {A} (o : option A) (P : A -> Prop) : match o with Some v => P v | None => False end -> exists v, o = Some v /\ P v.
Proof. destruct o as [v|]; [|intros []]. intros H. exists v. split; [reflexivity|exact H]. Qed.

Section Fmt.
Context (prec emax : Z) (Hp : Prec_gt_0 prec) (He : Prec_lt_emax prec emax).
Notation fl := (binary_float prec emax).
Context (mn mx : fl) (n : nat) (D : declared prec emax mn mx n).
Notation mnr := (B2R mn).
Notation mxr := (B2R mx).
Notation ser b := (mk_fs prec emax mn mx b).
Notation u := (FloatSerProofs.u prec).

Local Notation code := (FloatSerProofs.code prec emax mn mx n).
Local Notation val := (FloatSerProofs.val prec emax mn mx n).
Local Notation rs := (FloatSerProofs.rs prec emax mn mx n).
Local Notation N := (FloatSerProofs.N n).

(** what encoding a value does *)
Lemma encode_value b x : length b = n -> is_nan x = false ->
  exists c, (exists y : fl, is_finite y = true /\ B2R y = wanted mnr mxr x /\ c = code y) /\ 0 <= c <= N /\
    fserialize prec emax Hp He (ser b) x = Some (ser (val_bits n c)).
Proof.
  intros L NN. destruct (clamp_R prec emax mn mx n D (ser b) x eq_refl eq_refl NN) as [C1 C2].
  pose proof (wanted_in prec emax mn mx n D x) as WI.
  exists (code (fs_clamp prec emax (ser b) x)). split; [|split].
  - exists (fs_clamp prec emax (ser b) x). split; [exact C1|]. split; [exact C2|reflexivity].
  - apply code_range; [exact Hp|exact He|exact D|]. rewrite C2. exact WI.
  - apply (serialize_eq prec emax Hp He mn mx n D (ser b) x eq_refl eq_refl L NN).
Qed.

Lemma decode_value b : length b = n ->
  exists v, fdeserialize prec emax Hp He (ser b) = Some v /\ is_finite v = true /\ B2R v = val (bits_val b) /\ 0 <= bits_val b <= N.
Proof. intros L. apply (deserialize_eq prec emax Hp He mn mx n D (ser b) eq_refl eq_refl L). Qed.

Lemma bits_code c : 0 <= c <= N -> bits_val (val_bits n c) = c /\ length (val_bits n c) = n.
Proof.
  intros C. split.
  - rewrite bits_val_val_bits. apply Z.mod_small. unfold FloatSerProofs.N in C. lia.
  - apply val_bits_length.
Qed.

Lemma roundtrip b x : length b = n -> is_nan x = false ->
  exists b' v, fserialize prec emax Hp He (ser b) x = Some (ser b') /\ length b' = n /\
    fdeserialize prec emax Hp He (ser b') = Some v /\ is_finite v = true /\
    (Rabs (B2R v - wanted mnr mxr x) <= step mnr mxr n + slack prec mnr mxr)%R.
Proof.
  intros L NN. destruct (encode_value b x L NN) as (c & (y & Y1 & Y2 & Y3) & C & E). destruct (bits_code c C) as [B1 B2].
  destruct (decode_value (val_bits n c) B2) as (v & V1 & V2 & V3 & _). rewrite B1 in V3.
  exists (val_bits n c), v. split; [exact E|]. split; [exact B2|]. split; [exact V1|]. split; [exact V2|].
  rewrite V3, <- Y2, Y3. apply roundtrip_R; [exact Hp|exact He|exact D|]. rewrite Y2. apply (wanted_in prec emax mn mx n D).
Qed.

Lemma decode_range b : length b = n ->
  exists v, fdeserialize prec emax Hp He (ser b) = Some v /\ is_finite v = true /\
    (mnr <= B2R v <= mxr + slack prec mnr mxr)%R.
Proof.
  intros L. destruct (decode_value b L) as (v & V1 & V2 & V3 & C). exists v. split; [exact V1|]. split; [exact V2|].
  rewrite V3. split.
  - apply (val_bounds prec emax Hp He mn mx n D _ C).
  - apply (val_upper prec emax Hp He mn mx n D _ C).
Qed.

(** if the all-ones pattern decodes within the limits, so does every other *)
Lemma decode_range_top b v : length b = n ->
  fdeserialize prec emax Hp He (ser (repeat true n)) = Some v -> (B2R v <= mxr)%R ->
  exists w, fdeserialize prec emax Hp He (ser b) = Some w /\ is_finite w = true /\ (mnr <= B2R w <= mxr)%R.
Proof.
  intros L V1 V2. destruct (decode_value (repeat true n)) as (v' & V1' & _ & V3 & C0); [apply repeat_length|].
  rewrite V1 in V1'. injection V1' as <-.
  destruct (decode_value b L) as (w & W1 & W2 & W3 & C). exists w. split; [exact W1|]. split; [exact W2|].
  rewrite W3. split; [apply (val_bounds prec emax Hp He mn mx n D _ C)|].
  apply Rle_trans with (2 := V2). rewrite V3. apply (val_mono prec emax Hp He mn mx n D).
  split; [lia|]. assert (E : bits_val (repeat true n) = N).
  { unfold FloatSerProofs.N. clear. induction n as [|k IH]; [reflexivity|]. cbn [repeat bits_val]. rewrite IH, Nat2Z.inj_succ, Z.pow_succ_r by lia.
    simpl Z.b2z. lia. }
  rewrite E. lia.
Qed.

Lemma code_mono x y : (mnr <= B2R x <= mxr)%R -> (mnr <= B2R y <= mxr)%R -> (B2R x <= B2R y)%R -> code x <= code y.
Proof.
  intros X Y L. apply Zfloor_le. unfold qq. apply rnd_le; [exact Hp|]. apply Rmult_le_compat_r.
  - apply Rlt_le, Rinv_0_lt_compat. pose proof (rs_bounds prec emax Hp He mn mx n D) as (A & _).
    pose proof (tiny_pos prec emax). lra.
  - apply rnd_le; [exact Hp|]. lra.
Qed.

Lemma order b x y : length b = n -> is_nan x = false -> is_nan y = false -> (wanted mnr mxr x <= wanted mnr mxr y)%R ->
  exists bx by_ vx vy, fserialize prec emax Hp He (ser b) x = Some (ser bx) /\ fserialize prec emax Hp He (ser b) y = Some (ser by_) /\
    bits_val bx <= bits_val by_ /\
    fdeserialize prec emax Hp He (ser bx) = Some vx /\ fdeserialize prec emax Hp He (ser by_) = Some vy /\ (B2R vx <= B2R vy)%R.
Proof.
  intros L NX NY O. destruct (encode_value b x L NX) as (c & (x' & X1 & X2 & X3) & C & E).
  destruct (encode_value b y L NY) as (c' & (y' & Y1 & Y2 & Y3) & C' & E').
  destruct (bits_code c C) as [B1 B2]. destruct (bits_code c' C') as [B1' B2'].
  destruct (decode_value _ B2) as (v & V1 & V2 & V3 & _). destruct (decode_value _ B2') as (v' & V1' & V2' & V3' & _).
  pose proof (wanted_in prec emax mn mx n D x) as W1. pose proof (wanted_in prec emax mn mx n D y) as W2.
  assert (M : c <= c') by (rewrite X3, Y3; apply code_mono; rewrite ?X2, ?Y2; assumption).
  exists (val_bits n c), (val_bits n c'), v, v'. rewrite B1, B1' in *.
  split; [exact E|]. split; [exact E'|]. split; [exact M|]. split; [exact V1|]. split; [exact V1'|].
  rewrite V3, V3'. apply (val_mono prec emax Hp He mn mx n D). lia.
Qed.

(** the lower limit is exact *)
Lemma low_exact b x : length b = n -> is_nan x = false -> wanted mnr mxr x = mnr ->
  exists b' v, fserialize prec emax Hp He (ser b) x = Some (ser b') /\ fdeserialize prec emax Hp He (ser b') = Some v /\ B2R v = mnr.
Proof.
  intros L NN WX. destruct (encode_value b x L NN) as (c & (y & Y1 & Y2 & Y3) & C & E). destruct (bits_code c C) as [B1 B2].
  destruct (decode_value _ B2) as (v & V1 & V2 & V3 & _). exists (val_bits n c), v. split; [exact E|]. split; [exact V1|].
  rewrite V3, B1, Y3. unfold FloatSerProofs.code, qq, dd. rewrite Y2, WX, Rminus_diag_eq by reflexivity.
  rewrite rnd_0 by exact Hp. unfold Rdiv. rewrite Rmult_0_l, rnd_0 by exact Hp. change 0%R with (IZR 0). rewrite Zfloor_IZR.
  unfold FloatSerProofs.val, ff. rewrite Rmult_0_r, rnd_0, Rplus_0_r by exact Hp. apply rnd_B.
Qed.

(** a commanded code comes back as itself or as its predecessor *)
Lemma readback b : length b = n -> (slack prec mnr mxr <= step mnr mxr n)%R ->
  exists v b', fdeserialize prec emax Hp He (ser b) = Some v /\ fserialize prec emax Hp He (ser b) v = Some (ser b') /\
    bits_val b - 1 <= bits_val b' <= bits_val b.
Proof.
  intros L SL. destruct (decode_value b L) as (v & V1 & V2 & V3 & C).
  assert (NN : is_nan v = false) by (destruct v; try discriminate V2; reflexivity).
  destruct (encode_value b v L NN) as (c' & (y & Y1 & Y2 & Y3) & C' & E). destruct (bits_code c' C') as [B1 B2].
  exists v, (val_bits n c'). split; [exact V1|]. split; [exact E|]. rewrite B1. set (c := bits_val b) in *.
  pose proof (wanted_in prec emax mn mx n D v) as WI. rewrite <- Y2 in WI.
  destruct (code_close prec emax Hp He mn mx n D y WI) as [K1 K2]. rewrite <- Y3 in K1, K2.
  destruct (ff_err prec emax Hp He mn mx n D c (proj1 C)) as (e1 & A1 & A2).
  destruct (val_err prec emax Hp mn mx n c C) as (e2 & Z1 & Z2).
  pose proof (us prec emax mn mx n D) as U. pose proof (W_pos prec emax mn mx n D) as HW.
  pose proof (rs_bounds prec emax Hp He mn mx n D) as (R1 & R2 & _). pose proof (tiny_pos prec emax) as T.
  pose proof (N_le prec emax mn mx n D) as HN. pose proof (abs_lims prec emax mn mx) as AL.
  pose proof (rc_bounds prec emax Hp He mn mx n D c C) as RB. pose proof (ff_bounds prec emax Hp He mn mx n D c C) as FB.
  unfold slack, step in SL. rewrite (pow_eq n) in SL. replace (IZR N + 1 - 1)%R with (IZR N) in SL by ring.
  change (bpow radix2 (- prec)) with u in SL.
  set (W := (mxr - mnr)%R) in *. set (M := (Rabs mnr + Rabs mxr)%R) in *.
  assert (RC : (Rabs (FloatSerProofs.ff prec emax mn mx n c - rs * IZR c) <= u * (W * (1 + 201 / 100 * u)))%R).
  { rewrite A2. replace (rs * IZR c * (1 + e1) - rs * IZR c)%R with (rs * IZR c * e1)%R by ring.
    rewrite Rabs_mult, (Rabs_pos_eq (rs * IZR c)) by lra. rewrite (Rmult_comm u). apply Rmult_le_compat; try lra. apply Rabs_pos. }
  set (f := FloatSerProofs.ff prec emax mn mx n c) in *.
  assert (MF : (Rabs (mnr + f) <= (102 / 100) * M)%R).
  { pose proof (Rabs_pos mnr). pose proof (Rabs_pos mxr). pose proof (Rle_abs mxr). pose proof (Rle_abs (- mnr)). rewrite Rabs_Ropp in *.
    apply Rabs_le. unfold M, W in *. split; nra. }
  assert (P : (Rabs ((mnr + f) * e2) <= (102 / 100) * M * u)%R).
  { rewrite Rabs_mult. apply Rmult_le_compat; try apply Rabs_pos; assumption. }
  assert (VV : (Rabs (val c - mnr - rs * IZR c) <= (21 / 10) * (u * M))%R).
  { rewrite Z2. apply Rabs_le_inv in P. apply Rabs_le_inv in RC. apply Rabs_le.
    replace ((mnr + f) * (1 + e2) - mnr - rs * IZR c)%R with ((f - rs * IZR c) + (mnr + f) * e2)%R by ring.
    assert (u * (W * (1 + 201 / 100 * u)) <= (101 / 100) * (u * M))%R.
    { replace (101 / 100 * (u * M))%R with (u * (101 / 100 * M))%R by ring. apply Rmult_le_compat_l; [lra|]. nra. }
    set (p := ((mnr + f) * e2)%R) in *. split; lra. }
  apply Rabs_le_inv in VV.
  (* the value after clamping *)
  assert (TT : (rs * IZR c - (21 / 10) * (u * M) <= B2R y - mnr <= rs * IZR c + (21 / 10) * (u * M))%R).
  { assert (Y2' : B2R y = Rmax mnr (Rmin mxr (B2R v))) by (rewrite Y2; destruct v; try discriminate V2; reflexivity).
    pose proof (val_bounds prec emax Hp He mn mx n D c C) as [LB _]. rewrite V3 in Y2'.
    assert (UW : (u * W <= u * M)%R) by (apply Rmult_le_compat_l; lra).
    destruct (Rle_or_lt (val c) mxr) as [Q|Q].
    - rewrite (Rmin_right mxr) in Y2' by lra. rewrite Rmax_right in Y2' by lra. rewrite Y2'. lra.
    - rewrite (Rmin_left mxr) in Y2' by lra. rewrite Rmax_right in Y2' by (unfold W in HW; lra). rewrite Y2'.
      unfold W in *. split; nra. }
  set (t := (B2R y - mnr)%R) in *.
  assert (T0 : (0 <= t <= W)%R) by (unfold t, W; lra).
  assert (UT : (0 <= u * t <= u * M)%R).
  { split; [apply Rmult_le_pos; lra|apply Rmult_le_compat_l; lra]. }
  assert (UW : (u * W <= u * M)%R) by (apply Rmult_le_compat_l; lra).
  assert (RSL : (6 * (u * M) < rs)%R).
  { assert (X : (8 * u * M * IZR N <= W)%R).
    { apply Rmult_le_compat_r with (r := IZR N) in SL; [|lra]. replace (W / IZR N * IZR N)%R with W in SL by (field; lra). exact SL. }
    apply Rmult_lt_reg_r with (IZR N); [lra|]. nra. }
  assert (U1 : (rs * IZR c' < rs * (IZR c + 1))%R) by nra.
  assert (U2 : (rs * (IZR c - 2) < rs * IZR c')%R) by nra.
  apply Rmult_lt_reg_l in U1; [|lra]. apply Rmult_lt_reg_l in U2; [|lra].
  rewrite <- plus_IZR in U1. rewrite <- minus_IZR in U2. apply lt_IZR in U1. apply lt_IZR in U2. lia.
Qed.

(** NaN is not encodable *)
Lemma nan_undefined b : length b = n -> fserialize prec emax Hp He (ser b) B754_nan = None.
Proof.
  intros L. unfold fserialize. rewrite (res_eq prec emax Hp He mn mx n D (ser b) eq_refl eq_refl L).
  assert (E : fs_clamp prec emax (ser b) B754_nan = B754_nan).
  { unfold fs_clamp; cbn [fs_max fs_min]. unfold Bltb, SpecFloat.SFltb. cbn [B2SF].
    replace (SpecFloat.SFcompare (B2SF mx) SpecFloat.S754_nan) with (@None comparison) by (destruct mx as [[]|[]| |[]]; reflexivity).
    replace (SpecFloat.SFcompare (B2SF B754_nan) (B2SF mn)) with (@None comparison) by (destruct mn as [[]|[]| |[]]; reflexivity). reflexivity. }
  rewrite E. reflexivity.
Qed.
End Fmt.

(** ** Checking a declaration by computation *)
Section Check.
Context (prec emax : Z) (Hp : Prec_gt_0 prec) (He : Prec_lt_emax prec emax).
Notation fl := (binary_float prec emax).

Definition pw (e : Z) : fl := binary_normalize prec emax Hp He mode_NE 1 e false.
Definition declared_b (mn mx : fl) (n : nat) : bool :=
  is_finite mn && is_finite mx && Bltb mn mx && (1 <=? Z.of_nat n) && (Z.of_nat n <=? prec - 2) && (8 <=? prec) && (prec <=? 53)
  && Bleb (Babs mn) (pw (emax - 2)) && Bleb (Babs mx) (pw (emax - 2))
  && Bleb (pw (4 - emax + Z.of_nat n)) (fsub prec emax Hp He mx mn).

Lemma pw_R e : SpecFloat.emin prec emax <= e < emax -> B2R (pw e) = bpow radix2 e /\ is_finite (pw e) = true.
Proof.
  intros E. pose proof (binary_normalize_correct prec emax Hp He mode_NE 1 e false) as C. cbv zeta in C.
  replace (F2R (Float radix2 1 e)) with (bpow radix2 e) in C by (unfold F2R; simpl; ring).
  cbn [round_mode] in C. change (round radix2 (SpecFloat.fexp prec emax) ZnearestE (bpow radix2 e)) with (rnd prec emax (bpow radix2 e)) in C.
  rewrite rnd_pow in C by (try exact Hp; lia).
  rewrite Rlt_bool_true in C; [destruct C as (A & B & _); split; assumption|].
  rewrite Rabs_pos_eq by apply bpow_ge_0. apply bpow_lt. lia.
Qed.

Lemma declared_check mn mx n : declared_b mn mx n = true -> declared prec emax mn mx n.
Proof.
  unfold declared_b. rewrite !andb_true_iff, !Z.leb_le.
  intros (((((((((F1 & F2) & L) & N1) & N2) & P1) & P2) & A1) & A2) & S).
  assert (HM : prec < emax) by (exact He).
  assert (EM : SpecFloat.emin prec emax = 3 - emax - prec) by reflexivity.
  destruct (pw_R (emax - 2)) as [W1 W2]; [lia|].
  destruct (pw_R (4 - emax + Z.of_nat n)) as [W3 W4]; [lia|].
  rewrite Bltb_correct in L by assumption.
  assert (L' : (B2R mn < B2R mx)%R) by (destruct (Rlt_bool_spec (B2R mn) (B2R mx)); [assumption|discriminate]).
  rewrite Bleb_correct in A1, A2 by (rewrite ?is_finite_Babs; assumption).
  rewrite B2R_Babs, W1 in A1, A2.
  assert (A1' : (Rabs (B2R mn) <= bpow radix2 (emax - 2))%R) by (destruct (Rle_bool_spec (Rabs (B2R mn)) (bpow radix2 (emax - 2))); [assumption|discriminate]).
  assert (A2' : (Rabs (B2R mx) <= bpow radix2 (emax - 2))%R) by (destruct (Rle_bool_spec (Rabs (B2R mx)) (bpow radix2 (emax - 2))); [assumption|discriminate]).
  pose proof (u_small prec P1) as U. pose proof (u_pos prec) as U0.
  assert (Wle : (0 < B2R mx - B2R mn <= bpow radix2 (emax - 1))%R).
  { replace (emax - 1) with (1 + (emax - 2)) by lia. rewrite bpow_plus. change (bpow radix2 1) with 2%R.
    apply Rabs_le_inv in A1'. apply Rabs_le_inv in A2'. lra. }
  destruct (fsub_R prec emax Hp He mx mn F2 F1) as [G1 G2].
  { assert (B : (0 <= rnd prec emax (B2R mx - B2R mn) <= bpow radix2 (emax - 1))%R).
    { split; [rewrite <- (rnd_0 prec emax) at 1; apply rnd_le; [exact Hp|lra]|].
      rewrite <- (rnd_pow prec emax Hp (emax - 1)) by lia. apply rnd_le; [exact Hp|lra]. }
    rewrite Rabs_pos_eq by lra. apply Rle_lt_trans with (1 := proj2 B). apply bpow_lt. lia. }
  rewrite Bleb_correct in S by assumption. rewrite G1, W3 in S.
  assert (S' : (bpow radix2 (4 - emax + Z.of_nat n) <= rnd prec emax (B2R mx - B2R mn))%R)
    by (destruct (Rle_bool_spec (bpow radix2 (4 - emax + Z.of_nat n)) (rnd prec emax (B2R mx - B2R mn))); [assumption|discriminate]).
  constructor; try assumption; try lia.
  destruct (rnd_add_err prec emax Hp (B2R mx) (- B2R mn)) as (e & E1 & E2).
  { apply fmt_B. } { apply generic_format_opp. apply fmt_B. }
  change (B2R mx + - B2R mn)%R with (B2R mx - B2R mn)%R in E2. rewrite E2 in S'.
  replace (2 ^ n)%R with (bpow radix2 (Z.of_nat n)) by (rewrite bpow_powerRZ, <- pow_powerRZ; reflexivity).
  rewrite <- bpow_plus. replace (4 - emax + Z.of_nat n) with (1 + (3 - emax + Z.of_nat n)) in S' by lia.
  rewrite bpow_plus in S'. change (bpow radix2 1) with 2%R in S'. apply Rabs_le_inv in E1. nra.
Qed.
End Check.

(** ** Flight declarations *)
Section Flight.
Context (prec emax : Z) (Hp : Prec_gt_0 prec) (He : Prec_lt_emax prec emax).
Notation fl := (binary_float prec emax).

Definition fine_b (mn mx : fl) (n : nat) : bool :=
  (Z.of_nat n <=? prec - 5) &&
  ((Bleb mn (B754_zero false) && Bleb (B754_zero false) mx) || (Bleb (B754_zero false) mn && Bleb mn (fsub prec emax Hp He mx mn))).

Lemma Bleb_R (x y : fl) : is_finite x = true -> is_finite y = true -> Bleb x y = true -> (B2R x <= B2R y)%R.
Proof. intros X Y H. rewrite Bleb_correct in H by assumption. destruct (Rle_bool_spec (B2R x) (B2R y)); [assumption|discriminate]. Qed.

Lemma fine_check mn mx n : declared prec emax mn mx n -> fine_b mn mx n = true -> (slack prec (B2R mn) (B2R mx) <= step (B2R mn) (B2R mx) n)%R.
Proof.
  intros D F. unfold fine_b in F. apply andb_prop in F. destruct F as [F1 F]. apply Z.leb_le in F1.
  pose proof (dc_lt _ _ _ _ _ D) as L. pose proof (dc_mn _ _ _ _ _ D) as M1. pose proof (dc_mx _ _ _ _ _ D) as M2.
  pose proof (dc_n _ _ _ _ _ D) as DN. pose proof (dc_p _ _ _ _ _ D) as DP.
  pose proof (u_small prec (proj1 DP)) as U. pose proof (u_pos prec) as U0.
  assert (HM : prec < emax) by (exact He).
  assert (A : (Rabs (B2R mn) + Rabs (B2R mx) <= 4 * (B2R mx - B2R mn))%R).
  { apply orb_prop in F. destruct F as [F|F]; apply andb_prop in F; destruct F as [Fa Fb];
      apply Bleb_R in Fa; try assumption; try reflexivity; cbn [B2R] in Fa.
    - apply Bleb_R in Fb; try assumption; try reflexivity; cbn [B2R] in Fb.
      rewrite (Rabs_left1 (B2R mn)), (Rabs_pos_eq (B2R mx)) by lra. lra.
    - destruct (fsub_R prec emax Hp He mx mn M2 M1) as [G1 G2].
      { pose proof (dc_amn _ _ _ _ _ D) as Q1. pose proof (dc_amx _ _ _ _ _ D) as Q2. apply Rabs_le_inv in Q1. apply Rabs_le_inv in Q2.
        assert (EM : SpecFloat.emin prec emax = 3 - emax - prec) by reflexivity.
        assert (B : (0 <= rnd prec emax (B2R mx - B2R mn) <= bpow radix2 (emax - 1))%R).
        { split; [rewrite <- (rnd_0 prec emax) at 1; apply rnd_le; [exact Hp|lra]|].
          rewrite <- (rnd_pow prec emax Hp (emax - 1)) by lia. apply rnd_le; [exact Hp|].
          replace (emax - 1) with (1 + (emax - 2)) by lia. rewrite bpow_plus. change (bpow radix2 1) with 2%R. lra. }
        rewrite Rabs_pos_eq by lra. apply Rle_lt_trans with (1 := proj2 B). apply bpow_lt. lia. }
      apply Bleb_R in Fb; try assumption. rewrite G1 in Fb.
      destruct (rnd_add_err prec emax Hp (B2R mx) (- B2R mn)) as (e & E1 & E2).
      { apply fmt_B. } { apply generic_format_opp. apply fmt_B. }
      change (B2R mx + - B2R mn)%R with (B2R mx - B2R mn)%R in E2. rewrite E2 in Fb. apply Rabs_le_inv in E1.
      assert (B2R mn <= (B2R mx - B2R mn) * (101 / 100))%R.
      { apply Rle_trans with (1 := Fb). apply Rmult_le_compat_l; lra. }
      rewrite (Rabs_pos_eq (B2R mn)), (Rabs_pos_eq (B2R mx)) by lra. lra. }
  unfold slack, step. set (W := (B2R mx - B2R mn)%R) in *. set (K := (Rabs (B2R mn) + Rabs (B2R mx))%R) in *.
  assert (HW : (0 < W)%R) by (unfold W; lra).
  assert (P : (2 ^ n = bpow radix2 (Z.of_nat n))%R) by (rewrite bpow_powerRZ, <- pow_powerRZ; reflexivity).
  assert (P1 : (2 <= 2 ^ n)%R) by (rewrite P; change 2%R with (bpow radix2 1); apply bpow_le; lia).
  apply Rmult_le_reg_r with (2 ^ n - 1)%R; [lra|]. replace (W / (2 ^ n - 1) * (2 ^ n - 1))%R with W by (field; lra).
  assert (Q : (bpow radix2 (- prec) * 2 ^ n <= / 32)%R).
  { rewrite P, <- bpow_plus. change (/ 32)%R with (bpow radix2 (-5)). apply bpow_le. lia. }
  apply Rle_trans with (32 * (bpow radix2 (- prec) * 2 ^ n) * W)%R.
  - replace (8 * bpow radix2 (- prec) * K * (2 ^ n - 1))%R with ((bpow radix2 (- prec) * (2 ^ n - 1)) * (8 * K))%R by ring.
    replace (32 * (bpow radix2 (- prec) * 2 ^ n) * W)%R with ((bpow radix2 (- prec) * 2 ^ n) * (32 * W))%R by ring.
    pose proof (bpow_gt_0 radix2 (- prec)) as BP. pose proof (Rabs_pos (B2R mn)). pose proof (Rabs_pos (B2R mx)).
    apply Rmult_le_compat; [apply Rmult_le_pos; lra|unfold K; lra| |lra]. apply Rmult_le_compat_l; lra.
  - replace W with (1 * W)%R at 2 by ring. apply Rmult_le_compat_r; lra.
Qed.

(** the all-ones pattern is within the limits *)
Definition top_b (mn mx : fl) (n : nat) : bool :=
  match fdeserialize prec emax Hp He (mk_fs prec emax mn mx (repeat true n)) with Some v => is_finite v && Bleb v mx | None => false end.

Lemma top_check mn mx n b : declared prec emax mn mx n -> top_b mn mx n = true -> length b = n ->
  exists v, fdeserialize prec emax Hp He (mk_fs prec emax mn mx b) = Some v /\ is_finite v = true /\ (B2R mn <= B2R v <= B2R mx)%R.
Proof.
  intros D T L. unfold top_b in T. destruct (fdeserialize prec emax Hp He (mk_fs prec emax mn mx (repeat true n))) as [v|] eqn:E; [|discriminate].
  apply andb_prop in T. destruct T as [T1 T2]. apply (decode_range_top prec emax Hp He mn mx n D b v L E).
  apply Bleb_R; [exact T1|apply (dc_mx _ _ _ _ _ D)|exact T2].
Qed.
End Flight.

Definition ok32 (d : binary_float 24 128 * binary_float 24 128 * nat) : bool :=
  let '(mn, mx, n) := d in declared_b 24 128 prec32 emax32 mn mx n && fine_b 24 128 prec32 emax32 mn mx n && top_b 24 128 prec32 emax32 mn mx n.
Definition ok64 (d : binary_float 53 1024 * binary_float 53 1024 * nat) : bool :=
  let '(mn, mx, n) := d in declared_b 53 1024 prec64 emax64 mn mx n && fine_b 53 1024 prec64 emax64 mn mx n && top_b 53 1024 prec64 emax64 mn mx n.
Lemma flight32_ok : forallb ok32 flight32 = true. Proof. vm_compute. reflexivity. Qed.
Lemma flight64_ok : forallb ok64 flight64 = true. Proof. vm_compute. reflexivity. Qed.

Lemma flight32_all mn mx n : In (mn, mx, n) flight32 -> declared 24 128 mn mx n /\
  (slack 24 (B2R mn) (B2R mx) <= step (B2R mn) (B2R mx) n)%R /\
  (forall b, length b = n -> exists v, fdeserialize 24 128 prec32 emax32 (mk_fs 24 128 mn mx b) = Some v /\ is_finite v = true /\ (B2R mn <= B2R v <= B2R mx)%R).
Proof.
  intros I. pose proof (proj1 (forallb_forall ok32 flight32) flight32_ok _ I) as K. unfold ok32 in K. apply andb_prop in K. destruct K as [K T].
  apply andb_prop in K. destruct K as [K1 K2]. apply declared_check in K1. split; [exact K1|]. split.
  - apply (fine_check _ _ _ _ _ _ _ K1 K2).
  - intros b L. apply (top_check _ _ _ _ _ _ _ _ K1 T L).
Qed.
Lemma flight64_all mn mx n : In (mn, mx, n) flight64 -> declared 53 1024 mn mx n /\
  (slack 53 (B2R mn) (B2R mx) <= step (B2R mn) (B2R mx) n)%R /\
  (forall b, length b = n -> exists v, fdeserialize 53 1024 prec64 emax64 (mk_fs 53 1024 mn mx b) = Some v /\ is_finite v = true /\ (B2R mn <= B2R v <= B2R mx)%R).
Proof.
  intros I. pose proof (proj1 (forallb_forall ok64 flight64) flight64_ok _ I) as K. unfold ok64 in K. apply andb_prop in K. destruct K as [K T].
  apply andb_prop in K. destruct K as [K1 K2]. apply declared_check in K1. split; [exact K1|]. split.
  - apply (fine_check _ _ _ _ _ _ _ K1 K2).
  - intros b L. apply (top_check _ _ _ _ _ _ _ _ K1 T L).
Qed.
