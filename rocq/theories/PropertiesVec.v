(** * Vector and quaternion fields in telemetry *)
From Verif Require Import Base BitArrayModel VecSerModel VecSerSpec VecSerMoreProofs VecSerMainProofs QuatSerProofs.
From Coq Require Import Reals Lra.
Local Open Scope R_scope.

(** * C103 A vector survives telemetry to within the declared precision *)
(** any field whose lower limit is not negative, any vector whose first component is not zero, or is a negative zero: twice the declared precision *)
Theorem C103_twice_the_precision_partial : forall mn mx p v, 0 <= mn < mx -> (1 <= p)%nat -> sv_x v <> 0 \/ sv_y v <> 0 /\ sv_x_neg0 v = true ->
  exists b, vserialize mn mx p v = Some b /\ length b = (1 + vb1 p + 2 * vb2 mn mx p)%nat /\
    dist3 (vdeserialize mn mx p b) (within_limits mn mx (pt v)) <= 2 * declared_precision mn mx p.
Proof. exact vec_twice. Qed.
Print Assumptions C103_twice_the_precision_partial.
(** the position fields keep the declared precision *)
Theorem C103_position_fields_partial : forall v, 6771000 <= len3 (pt v) <= 6921000 -> sv_x v <> 0 \/ sv_y v <> 0 /\ sv_x_neg0 v = true ->
  exists b, vserialize 6771000 6921000 28 v = Some b /\
    dist3 (vdeserialize 6771000 6921000 28 b) (pt v) <= declared_precision 6771000 6921000 28.
Proof. exact vec_position. Qed.
Print Assumptions C103_position_fields_partial.
(** no field with lower limit zero does *)
Theorem C103_zero_based_fields_refuted : forall mx p, 0 < mx -> (1 <= p)%nat ->
  exists v b, sv_x v <> 0 /\ len3 (pt v) = mx /\ vserialize 0 mx p v = Some b /\ declared_precision 0 mx p < dist3 (vdeserialize 0 mx p b) (pt v).
Proof. exact vec_zero_field. Qed.
Print Assumptions C103_zero_based_fields_refuted.
Example C103_case : let v := SV 6800000 0 0 false false in 0 <= 6771000 < 6921000 /\ (1 <= 28)%nat /\ sv_x v <> 0 /\ 6771000 <= len3 (pt v) <= 6921000.
Proof.
  cbv zeta. assert (E : len3 (pt (SV 6800000 0 0 false false)) = 6800000).
  { unfold len3, dist3, pt. cbn. replace ((6800000 - 0) * (6800000 - 0) + (0 - 0) * (0 - 0) + (0 - 0) * (0 - 0)) with (6800000 * 6800000) by ring. apply sqrt_square. lra. }
  rewrite E. cbn. repeat split; try lra; lia.
Qed.

(** * C104 Telemetry never reverses a component of a vector *)
Theorem C104_signs_kept_partial : forall mn mx p v, 0 <= mn < mx -> (1 <= p)%nat -> sv_x v <> 0 \/ sv_y v <> 0 /\ sv_x_neg0 v = true ->
  mn <= len3 (pt v) <= mx ->
  exists b, vserialize mn mx p v = Some b /\ let w := vdeserialize mn mx p b in let e := 2 * declared_precision mn mx p in
    sign_kept e (sv_x v) (first3 w) /\ sign_kept e (sv_y v) (second3 w) /\ sign_kept e (sv_z v) (third3 w).
Proof. exact vec_signs. Qed.
Print Assumptions C104_signs_kept_partial.
(** when the first component is zero the second is reversed, in every field *)
Theorem C104_second_component_reversed_refuted : forall mn mx p v, 0 <= mn < mx -> (1 <= p)%nat -> sv_x v = 0 -> sv_x_neg0 v = false ->
  2 * declared_precision mn mx p < sv_y v -> mn <= len3 (pt v) <= mx ->
  exists b, vserialize mn mx p v = Some b /\ second3 (vdeserialize mn mx p b) < 0.
Proof. exact vec_reversed. Qed.
Print Assumptions C104_second_component_reversed_refuted.
Example C104_case : let v := SV 0 6 0 false false in 0 <= 0 < 10 /\ (1 <= 4)%nat /\ sv_x v = 0 /\ sv_x_neg0 v = false /\
  2 * declared_precision 0 10 4 < sv_y v /\ 0 <= len3 (pt v) <= 10 /\ sv_x (SV (-3) 4 0 false false) <> 0 /\ len3 (pt (SV (-3) 4 0 false false)) = 5.
Proof.
  cbv zeta. assert (E : len3 (pt (SV 0 6 0 false false)) = 6).
  { unfold len3, dist3, pt. cbn. replace ((0 - 0) * (0 - 0) + (6 - 0) * (6 - 0) + (0 - 0) * (0 - 0)) with (6 * 6) by ring. apply sqrt_square. lra. }
  assert (F : len3 (pt (SV (-3) 4 0 false false)) = 5).
  { unfold len3, dist3, pt. cbn. replace ((-3 - 0) * (-3 - 0) + (4 - 0) * (4 - 0) + (0 - 0) * (0 - 0)) with (5 * 5) by ring. apply sqrt_square. lra. }
  rewrite E, F. unfold declared_precision. cbn [sv_x sv_y sv_x_neg0]. replace (2 ^ 4) with 16 by ring. repeat split; try lra; lia.
Qed.

(** * C105 Every vector a field can hold can be encoded *)
Theorem C105_off_axis_partial : forall mn mx p v, 0 <= mn < mx -> sv_x v <> 0 \/ sv_y v <> 0 -> exists b, vserialize mn mx p v = Some b.
Proof. exact vec_defined. Qed.
Print Assumptions C105_off_axis_partial.
(** vectors along the third axis, and the zero vector every field starts with, are not *)
Theorem C105_axis_undefined_refuted : forall mn mx p v, sv_x v = 0 -> sv_y v = 0 -> vserialize mn mx p v = None.
Proof. exact axis_undefined. Qed.
Print Assumptions C105_axis_undefined_refuted.
Example C105_case : sv_x (SV 0 0 7 false false) = 0 /\ sv_y (SV 0 0 7 false false) = 0 /\ sv_y (SV 0 1 7 false false) <> 0.
Proof. cbn. lra. Qed.

(** * C106 Every received pattern is a vector whose length is within the limits *)
Theorem C106_length_within_limits : forall mn mx p b, 0 <= mn < mx -> length b = (1 + vb1 p + 2 * vb2 mn mx p)%nat ->
  mn <= len3 (vdeserialize mn mx p b) <= mx.
Proof. exact vec_length. Qed.
Print Assumptions C106_length_within_limits.
Example C106_case : 0 <= 0 < 10 /\ exists b : list bool, length b = (1 + vb1 4 + 2 * vb2 0 10 4)%nat.
Proof. split; [lra|]. exists (repeat true (1 + vb1 4 + 2 * vb2 0 10 4)). apply repeat_length. Qed.

(** * C107 An attitude survives telemetry *)
Theorem C107_same_rotation : forall s, norm4r s <> 0 -> exists b q, qserialize s = Some b /\ length b = 32%nat /\ qdeserialize b = Some q /\
  same_rotation_within (6 / 1000) (fun i => qget s i / norm4r s) q.
Proof. exact quat_roundtrip. Qed.
Print Assumptions C107_same_rotation.
Example C107_case : norm4r (1, -1, 1, -1) <> 0.
Proof. unfold norm4r. replace (1 * 1 + -1 * -1 + 1 * 1 + -1 * -1) with (2 * 2) by ring. rewrite sqrt_square; lra. Qed.

(** * C108 Every received pattern is an attitude *)
Theorem C108_unit_partial : forall b q, length b = 32%nat -> qdeserialize b = Some q ->
  q 0%nat * q 0%nat + q 1%nat * q 1%nat + q 2%nat * q 2%nat + q 3%nat * q 3%nat = 1.
Proof. exact quat_unit. Qed.
Print Assumptions C108_unit_partial.
(** some patterns decode to the root of a negative number *)
Theorem C108_pattern_of_ones_refuted : length (repeat true 32) = 32%nat /\ qdeserialize (repeat true 32) = None.
Proof. split; [reflexivity|exact ones_no_quat]. Qed.
Print Assumptions C108_pattern_of_ones_refuted.
Example C108_case : exists b q, length b = 32%nat /\ qdeserialize b = Some q.
Proof.
  assert (N : norm4r (1, -1, 1, -1) <> 0) by (unfold norm4r; replace (1 * 1 + -1 * -1 + 1 * 1 + -1 * -1) with (2 * 2) by ring; rewrite sqrt_square; lra).
  destruct (quat_roundtrip _ N) as (b & q & _ & L & D & _). eauto.
Qed.

(** * C109 Every quaternion a field can hold can be encoded *)
Theorem C109_nonzero_partial : forall s, norm4r s <> 0 -> exists b, qserialize s = Some b.
Proof. intros s N. destruct (quat_roundtrip s N) as (b & q & E & _). eauto. Qed.
Print Assumptions C109_nonzero_partial.
Theorem C109_zero_undefined_refuted : qserialize (0, 0, 0, 0) = None.
Proof. exact zero_quat_undefined. Qed.
Print Assumptions C109_zero_undefined_refuted.
Example C109_case : norm4r (1, -1, 1, -1) <> 0.
Proof. exact C107_case. Qed.
