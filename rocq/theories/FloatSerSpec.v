(** What the floating point serializer is meant to do, in terms of real numbers and without reference to how it computes. *)
From Verif Require Import Base.
From Coq Require Import Reals.
From Flocq Require Import Core IEEE754.BinarySingleNaN.
Local Open Scope R_scope.

(** A declaration the theorems speak about: finite limits in the right order, so far apart that a step is a normal number,
    no overflow, and at least two bits fewer than the significand has. *)
Record declared (prec emax : Z) (mn mx : binary_float prec emax) (n : nat) : Prop := {
  dc_mn : is_finite mn = true;
  dc_mx : is_finite mx = true;
  dc_lt : B2R mn < B2R mx;
  dc_n : (1 <= Z.of_nat n <= prec - 2)%Z;
  dc_p : (8 <= prec <= 53)%Z;
  dc_amn : Rabs (B2R mn) <= bpow radix2 (emax - 2);
  dc_amx : Rabs (B2R mx) <= bpow radix2 (emax - 2);
  dc_step : bpow radix2 (3 - emax) * 2 ^ n <= B2R mx - B2R mn }.

(** the value that should be transmitted for [x]: the nearest one within the limits; infinities count as very large *)
Definition wanted {prec emax} (mn mx : R) (x : binary_float prec emax) : R :=
  match x with
  | B754_infinity true => mn
  | B754_infinity false => mx
  | _ => Rmax mn (Rmin mx (B2R x))
  end.

(** the distance between neighbouring codes *)
Definition step (mn mx : R) (n : nat) : R := (mx - mn) / (2 ^ n - 1).

(** an allowance for rounding: four units in the last place of the larger limit *)
Definition slack (prec : Z) (mn mx : R) : R := 8 * bpow radix2 (- prec) * (Rabs mn + Rabs mx).
