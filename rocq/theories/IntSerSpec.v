(** Specification of integer telemetry fields, phrased only with integers. *)
From Verif Require Import Base IntSerModel.

(** nearest value of the declared range *)
Definition clamp (lo hi v : Z) : Z := Z.max lo (Z.min hi v).

(** smallest step with which [bits] bits cover a range of the given extent *)
Definition is_step (extent bits st : Z) : Prop :=
  extent <= st * (2 ^ bits - 1) /\ (forall st', 0 <= st' -> extent <= st' * (2 ^ bits - 1) -> st <= st').

(** [d] is the quantised value of [v] *)
Definition quantised (lo hi st v d : Z) : Prop :=
  d <= clamp lo hi v < d + Z.max st 1 /\ exists k, 0 <= k /\ d = lo + k * st.

(** What the constructors accept: the range lies in the type, min <= max, and the width is between
    one bit and the width of the type. *)
Definition declared (s : iser) : Prop :=
  ity_min (is_ty s) <= is_min s /\ is_min s <= is_max s /\ is_max s <= ity_max (is_ty s) /\
  1 <= Z.of_nat (length (is_bits s)) <= ity_bits (is_ty s).

(** The two declarations on which the C++ arithmetic itself goes wrong are excluded:
    an [int] range whose extent overflows [int], and a one-bit [signed char] of extent above 127. *)
Definition arith_safe (s : iser) : Prop :=
  match is_ty s with
  | SInt => is_max s - is_min s < 2 ^ 31
  | SChar => 2 <= Z.of_nat (length (is_bits s)) \/ is_max s - is_min s <= 127
  | _ => True
  end.
