(** * Floating point fields in telemetry and in commands *)
From Verif Require Import Base BitArrayModel FloatSerModel FloatSerSpec FloatSerMoreProofs.
From Coq Require Import Reals.
From Flocq Require Import Core IEEE754.BinarySingleNaN.
Local Open Scope Z_scope.

(** * C96 A value of a floating point field survives telemetry to within one step *)
(** for float ([prec] = 24, [emax] = 128) and double (53, 1024) alike; infinities included *)
Theorem C96_within_a_step : forall prec emax (Hp : Prec_gt_0 prec) (He : Prec_lt_emax prec emax) mn mx n, declared prec emax mn mx n ->
  forall b x, length b = n -> is_nan x = false ->
  exists b' v, fserialize prec emax Hp He (mk_fs prec emax mn mx b) x = Some (mk_fs prec emax mn mx b') /\ length b' = n /\
    fdeserialize prec emax Hp He (mk_fs prec emax mn mx b') = Some v /\ is_finite v = true /\
    (Rabs (B2R v - wanted (B2R mn) (B2R mx) x) <= step (B2R mn) (B2R mx) n + slack prec (B2R mn) (B2R mx))%R.
Proof. exact roundtrip. Qed.
Print Assumptions C96_within_a_step.
Theorem C96_flight_fields : (forall mn mx n, In (mn, mx, n) flight32 -> declared 24 128 mn mx n /\ (slack 24 (B2R mn) (B2R mx) <= step (B2R mn) (B2R mx) n)%R) /\
  (forall mn mx n, In (mn, mx, n) flight64 -> declared 53 1024 mn mx n /\ (slack 53 (B2R mn) (B2R mx) <= step (B2R mn) (B2R mx) n)%R).
Proof. split; intros mn mx n I; [destruct (flight32_all mn mx n I) as (A & B & _)|destruct (flight64_all mn mx n I) as (A & B & _)]; split; assumption. Qed.
Print Assumptions C96_flight_fields.
Example C96_case : In (f32 10 1, f32 50 1, 6%nat) flight32 /\ length (repeat false 6) = 6%nat /\ is_nan (f32 1703 50) = false /\
  match fserialize 24 128 prec32 emax32 (mk_fs 24 128 (f32 10 1) (f32 50 1) (repeat false 6)) (f32 1703 50) with
  | Some s => bits_val (fs_bits _ _ s) = 37 | None => False end.
Proof. split; [unfold flight32; auto 20 using in_eq, in_cons|]. vm_compute. auto. Qed.

(** * C97 Every received pattern is a value within the field's limits *)
(** the upper limit may be exceeded by rounding *)
Theorem C97_within_limits_partial : forall prec emax (Hp : Prec_gt_0 prec) (He : Prec_lt_emax prec emax) mn mx n, declared prec emax mn mx n ->
  forall b, length b = n -> exists v, fdeserialize prec emax Hp He (mk_fs prec emax mn mx b) = Some v /\ is_finite v = true /\
    (B2R mn <= B2R v <= B2R mx + slack prec (B2R mn) (B2R mx))%R.
Proof. exact decode_range. Qed.
Print Assumptions C97_within_limits_partial.
(** it is not for the fields of the flight software *)
Theorem C97_flight_float_fields : forall mn mx n, In (mn, mx, n) flight32 -> forall b, length b = n ->
  exists v, fdeserialize 24 128 prec32 emax32 (mk_fs 24 128 mn mx b) = Some v /\ is_finite v = true /\ (B2R mn <= B2R v <= B2R mx)%R.
Proof. intros mn mx n I. apply (flight32_all mn mx n I). Qed.
Print Assumptions C97_flight_float_fields.
Theorem C97_flight_double_fields : forall mn mx n, In (mn, mx, n) flight64 -> forall b, length b = n ->
  exists v, fdeserialize 53 1024 prec64 emax64 (mk_fs 53 1024 mn mx b) = Some v /\ is_finite v = true /\ (B2R mn <= B2R v <= B2R mx)%R.
Proof. intros mn mx n I. apply (flight64_all mn mx n I). Qed.
Print Assumptions C97_flight_double_fields.
Theorem C97_above_limit_refuted : declared 24 128 (f32 (-40) 1) (f32 17 1) 3 /\
  exists v, fdeserialize 24 128 prec32 emax32 (mk_fs 24 128 (f32 (-40) 1) (f32 17 1) [true; true; true]) = Some v /\ Bltb (f32 17 1) v = true.
Proof. split; [apply (declared_check 24 128 prec32 emax32); vm_compute; reflexivity|]. apply some_P. vm_compute. reflexivity. Qed.
Print Assumptions C97_above_limit_refuted.

(** * C98 Telemetry preserves order *)
Theorem C98_order_preserved : forall prec emax (Hp : Prec_gt_0 prec) (He : Prec_lt_emax prec emax) mn mx n, declared prec emax mn mx n ->
  forall b x y, length b = n -> is_nan x = false -> is_nan y = false -> (wanted (B2R mn) (B2R mx) x <= wanted (B2R mn) (B2R mx) y)%R ->
  exists bx by_ vx vy, fserialize prec emax Hp He (mk_fs prec emax mn mx b) x = Some (mk_fs prec emax mn mx bx) /\
    fserialize prec emax Hp He (mk_fs prec emax mn mx b) y = Some (mk_fs prec emax mn mx by_) /\ bits_val bx <= bits_val by_ /\
    fdeserialize prec emax Hp He (mk_fs prec emax mn mx bx) = Some vx /\ fdeserialize prec emax Hp He (mk_fs prec emax mn mx by_) = Some vy /\
    (B2R vx <= B2R vy)%R.
Proof. exact order. Qed.
Print Assumptions C98_order_preserved.
Example C98_case : declared 53 1024 (f64 0 1) (f64 100 1) 14 /\ is_nan (f64 1 3) = false /\ is_nan (f64 1 2) = false /\
  match fserialize 53 1024 prec64 emax64 (mk_fs 53 1024 (f64 0 1) (f64 100 1) (repeat false 14)) (f64 1 3),
        fserialize 53 1024 prec64 emax64 (mk_fs 53 1024 (f64 0 1) (f64 100 1) (repeat false 14)) (f64 1 2) with
  | Some s, Some t => bits_val (fs_bits _ _ s) = 54 /\ bits_val (fs_bits _ _ t) = 81 | _, _ => False end.
Proof. split; [apply (declared_check 53 1024 prec64 emax64); vm_compute; reflexivity|]. vm_compute. auto. Qed.

(** * C99 A commanded floating point value is reported back by telemetry as the same code *)
(** or as the next lower one *)
Theorem C99_reported_back_partial : forall prec emax (Hp : Prec_gt_0 prec) (He : Prec_lt_emax prec emax) mn mx n, declared prec emax mn mx n ->
  forall b, length b = n -> (slack prec (B2R mn) (B2R mx) <= step (B2R mn) (B2R mx) n)%R ->
  exists v b', fdeserialize prec emax Hp He (mk_fs prec emax mn mx b) = Some v /\
    fserialize prec emax Hp He (mk_fs prec emax mn mx b) v = Some (mk_fs prec emax mn mx b') /\ bits_val b - 1 <= bits_val b' <= bits_val b.
Proof. exact readback. Qed.
Print Assumptions C99_reported_back_partial.
(** a filter constant of 1 is reported as 254/255 *)
Theorem C99_lower_code_refuted : In (f32 0 1, f32 1 1, 8%nat) flight32 /\
  exists v, fdeserialize 24 128 prec32 emax32 (mk_fs 24 128 (f32 0 1) (f32 1 1) (repeat true 8)) = Some v /\
    exists s, fserialize 24 128 prec32 emax32 (mk_fs 24 128 (f32 0 1) (f32 1 1) (repeat true 8)) v = Some s /\ bits_val (fs_bits _ _ s) = 254.
Proof.
  split; [unfold flight32; auto 20 using in_eq, in_cons|].
  assert (E : match match fdeserialize 24 128 prec32 emax32 (mk_fs 24 128 (f32 0 1) (f32 1 1) (repeat true 8)) with
    | Some v => fserialize 24 128 prec32 emax32 (mk_fs 24 128 (f32 0 1) (f32 1 1) (repeat true 8)) v | None => None end with
    | Some s => bits_val (fs_bits _ _ s) = 254 | None => False end) by (vm_compute; reflexivity).
  apply some_P. destruct (fdeserialize 24 128 prec32 emax32 _) as [v|]; [|exact E]. apply some_P. exact E.
Qed.
Print Assumptions C99_lower_code_refuted.

(** * C100 Every value a floating point field can hold can be put into telemetry *)
Theorem C100_defined_partial : forall prec emax (Hp : Prec_gt_0 prec) (He : Prec_lt_emax prec emax) mn mx n, declared prec emax mn mx n ->
  forall b x, length b = n -> is_nan x = false -> fserialize prec emax Hp He (mk_fs prec emax mn mx b) x <> None.
Proof. intros prec emax Hp He mn mx n D b x L N E. destruct (roundtrip prec emax Hp He mn mx n D b x L N) as (b' & v & A & _). rewrite E in A. discriminate A. Qed.
Print Assumptions C100_defined_partial.
(** not a NaN, whatever the field *)
Theorem C100_nan_refuted : forall prec emax (Hp : Prec_gt_0 prec) (He : Prec_lt_emax prec emax) mn mx n, declared prec emax mn mx n ->
  forall b, length b = n -> fserialize prec emax Hp He (mk_fs prec emax mn mx b) B754_nan = None.
Proof. exact nan_undefined. Qed.
Print Assumptions C100_nan_refuted.

(** * C101 The limits of a field can be transmitted exactly *)
Theorem C101_lower_limit_partial : forall prec emax (Hp : Prec_gt_0 prec) (He : Prec_lt_emax prec emax) mn mx n, declared prec emax mn mx n ->
  forall b x, length b = n -> is_nan x = false -> wanted (B2R mn) (B2R mx) x = B2R mn ->
  exists b' v, fserialize prec emax Hp He (mk_fs prec emax mn mx b) x = Some (mk_fs prec emax mn mx b') /\
    fdeserialize prec emax Hp He (mk_fs prec emax mn mx b') = Some v /\ B2R v = B2R mn.
Proof. exact low_exact. Qed.
Print Assumptions C101_lower_limit_partial.
(** the upper limit of the filter constants, of the firing pressure, of the second tank's pressure, of the average waits and of
    the detumbling factor is transmitted as the code below *)
Theorem C101_upper_limit_refuted :
  (exists s, fserialize 24 128 prec32 emax32 (mk_fs 24 128 (f32 0 1) (f32 1 1) (repeat false 8)) (f32 1 1) = Some s /\ bits_val (fs_bits _ _ s) = 254) /\
  (exists s, fserialize 24 128 prec32 emax32 (mk_fs 24 128 (f32 10 1) (f32 50 1) (repeat false 6)) (f32 50 1) = Some s /\ bits_val (fs_bits _ _ s) = 62) /\
  (exists s, fserialize 24 128 prec32 emax32 (mk_fs 24 128 (f32 0 1) (f32 150 1) (repeat false 8)) (f32 150 1) = Some s /\ bits_val (fs_bits _ _ s) = 254) /\
  (exists s, fserialize 24 128 prec32 emax32 (mk_fs 24 128 (f32 0 1) (f32 170000 1) (repeat false 18)) (f32 170000 1) = Some s /\ bits_val (fs_bits _ _ s) = 262142) /\
  (exists s, fserialize 53 1024 prec64 emax64 (mk_fs 53 1024 (f64 0 1) (f64 5 100) (repeat false 7)) (f64 5 100) = Some s /\ bits_val (fs_bits _ _ s) = 126).
Proof. repeat (split; [apply some_P; vm_compute; reflexivity|]). apply some_P. vm_compute. reflexivity. Qed.
Print Assumptions C101_upper_limit_refuted.

(** * C102 A field may be declared with any number of bits and with any limits *)
(** at most two bits fewer than the type's precision, limits apart: see C96.  With 50 bits for a float, the width of the
    magnitude of adcs_cmd.rwa_speed_cmd, encoding the upper limit leaves the bits of the value encoded before *)
Theorem C102_stale_bits_refuted : exists s,
  fserialize 24 128 prec32 emax32 (fser_make 24 128 (f32 (-680678) 1000) (f32 680678 1000) 50) (f32 0 1) = Some s /\
  exists t, fserialize 24 128 prec32 emax32 s (f32 680678 1000) = Some t /\ fs_bits _ _ t = fs_bits _ _ s.
Proof.
  apply some_P. assert (E : match fserialize 24 128 prec32 emax32 (fser_make 24 128 (f32 (-680678) 1000) (f32 680678 1000) 50) (f32 0 1) with
    | Some s => match fserialize 24 128 prec32 emax32 s (f32 680678 1000) with Some t => fs_bits _ _ t = fs_bits _ _ s | None => False end | None => False end)
    by (vm_compute; reflexivity).
  destruct (fserialize 24 128 prec32 emax32 _ _) as [s|]; [|exact E]. apply some_P. exact E.
Qed.
Print Assumptions C102_stale_bits_refuted.
(** 64 bits, or none, or equal limits: undefined for every value *)
Theorem C102_undefined_refuted : forall prec emax (Hp : Prec_gt_0 prec) (He : Prec_lt_emax prec emax) mn mx x,
  fserialize prec emax Hp He (mk_fs prec emax mn mx (repeat false 64)) x = None /\
  fdeserialize prec emax Hp He (mk_fs prec emax mn mx (repeat false 64)) = None.
Proof.
  intros. assert (E : num_intervals 64 = None) by (vm_compute; reflexivity).
  unfold fserialize, fdeserialize, fs_res. cbn [fs_bits]. rewrite repeat_length, E. split; reflexivity.
Qed.
Print Assumptions C102_undefined_refuted.
Theorem C102_degenerate_refuted : fserialize 24 128 prec32 emax32 (fser_make 24 128 (f32 5 1) (f32 5 1) 8) (f32 5 1) = None /\
  fserialize 24 128 prec32 emax32 (fser_make 24 128 (f32 0 1) (f32 1 1) 0) (f32 1 2) = None.
Proof. split; vm_compute; reflexivity. Qed.
Print Assumptions C102_degenerate_refuted.
Theorem C102_narrow_partial : forall prec emax (Hp : Prec_gt_0 prec) (He : Prec_lt_emax prec emax) mn mx n, declared prec emax mn mx n ->
  forall x, is_nan x = false -> exists b', length b' = n /\
    (* whatever the bits before *)
    forall b0 : list bool, length b0 = n -> fserialize prec emax Hp He (mk_fs prec emax mn mx b0) x = Some (mk_fs prec emax mn mx b').
Proof.
  intros prec emax Hp He mn mx n D x N. destruct (encode_value prec emax Hp He mn mx n D (repeat false n) x (repeat_length _ _) N) as (c & (y & Y1 & Y2 & Y3) & C & E).
  exists (val_bits n c). split; [apply (bits_code n c C)|]. intros b0 L0.
  destruct (encode_value prec emax Hp He mn mx n D b0 x L0 N) as (c' & (z & Z1 & Z2 & Z3) & C' & E'). rewrite E'.
  rewrite Y3, Z3. do 3 f_equal. apply (FloatSerProofs.code_ext prec emax mn mx n). congruence.
Qed.
Print Assumptions C102_narrow_partial.
