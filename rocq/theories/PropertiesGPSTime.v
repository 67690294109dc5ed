From Verif Require Import Base BitArrayModel IntSerModel IntSerSpec GPSTimeModel GPSTimeSpec GPSTimeProofs.

(** C03.  Nanoseconds to time and back, and time to nanoseconds and back. *)
Theorem C03_of_nanoseconds_exact : forall t,
  in64 t -> normal (gtime_of_ns t) /\ g_set (gtime_of_ns t) = true /\
            instant (gtime_of_ns t) = t /\ gtime_ns (gtime_of_ns t) = t.
Proof. intros t H. destruct (of_ns_spec t H) as (A & B & C). auto using ns_of_ns. Qed.
Print Assumptions C03_of_nanoseconds_exact.

Theorem C03_to_nanoseconds_lossless_partial : forall g,
  normal g -> g_set g = true -> in64 (instant g) ->
  gtime_ns g = instant g /\ gtime_of_ns (gtime_ns g) = g.
Proof. intros g N S I. split; [apply gtime_ns_instant | apply of_ns_instant]; assumption. Qed.
Print Assumptions C03_to_nanoseconds_lossless_partial.

Example C03_normal_case :
  let g := gtime_make 2122 345600123 999999 in
  normal g /\ in64 (instant g) /\ gtime_ns g = 1283731200123999999.
Proof. cbv zeta; unfold normal, in64; ground. Qed.

(** Weeks from 30501 on do not fit a 64-bit nanosecond count: the full statement is false there. *)
Theorem C03_large_weeks_lossless_refuted :
  exists g, normal g /\ g_set g = true /\ gtime_of_ns (gtime_ns g) <> g.
Proof. exists (gtime_make 40000 0 0). unfold normal. ground. vm_compute. discriminate. Qed.
Print Assumptions C03_large_weeks_lossless_refuted.

Theorem C03_add_exact_partial : forall g t,
  in64 (instant g) -> in64 (instant g + t) ->
  normal (add_n g t) /\ g_set (add_n g t) = true /\ instant (add_n g t) = instant g + t.
Proof. exact add_spec. Qed.
Print Assumptions C03_add_exact_partial.

Theorem C03_add_then_subtract_partial : forall g t,
  normal g -> g_set g = true -> 0 <= t -> in64 (instant g) -> in64 (instant g + t) ->
  sub_n (add_n g t) t = g.
Proof. exact add_sub. Qed.
Print Assumptions C03_add_then_subtract_partial.

Theorem C03_subtract_exact : forall g t,
  g_set g = true -> in64 (instant g) -> 0 <= t <= instant g ->
  normal (sub_n g t) /\ g_set (sub_n g t) = true /\ instant (sub_n g t) = instant g - t.
Proof. exact sub_enough. Qed.
Print Assumptions C03_subtract_exact.

Theorem C03_subtract_too_much_unsets : forall g t,
  g_set g = true -> in64 (instant g) -> instant g < t -> g_set (sub_n g t) = false.
Proof. exact sub_too_much. Qed.
Print Assumptions C03_subtract_too_much_unsets.

Example C03_arith_case :
  let g := gtime_make 2122 604799999 999999 in
  normal g /\ in64 (instant g + 1) /\ add_n g 1 = gtime_make 2123 0 0 /\ sub_n (gtime_make 2123 0 0) 1 = g /\
  g_set (sub_n g (2 ^ 63)) = false.
Proof. cbv zeta; unfold normal, in64; ground. Qed.

Theorem C03_comparisons_on_set_times : forall a b,
  g_set a = true -> g_set b = true -> in64 (instant a) -> in64 (instant b) ->
  (eq_g a b = true <-> instant a = instant b) /\ (ne_g a b = true <-> instant a <> instant b) /\
  (lt_g a b = true <-> instant a < instant b) /\ (gt_g a b = true <-> instant a > instant b) /\
  (le_g a b = true <-> instant a <= instant b) /\ (ge_g a b = true <-> instant a >= instant b).
Proof. exact compare_set. Qed.
Print Assumptions C03_comparisons_on_set_times.

Example C03_compare_case :
  let a := gtime_make 2122 5 7 in let b := gtime_make 2122 6 (-999994) in
  in64 (instant a) /\ in64 (instant b) /\ lt_g a b = false /\ gt_g a b = true /\ ne_g a b = true.
Proof. cbv zeta; unfold in64; ground. Qed.

(** An unset operand: never equal and never below... *)
Theorem C03_unset_never_equal_or_below_partial : forall a b,
  g_set a = false \/ g_set b = false -> eq_g a b = false /\ lt_g a b = false.
Proof. exact unset_eq_lt. Qed.
Print Assumptions C03_unset_never_equal_or_below_partial.

(** ... but always above: [>] and [>=] hold of every pair with an unset operand, both ways round. *)
Theorem C03_unset_never_above_refuted : forall a b,
  g_set a = false \/ g_set b = false ->
  gt_g a b = true /\ gt_g b a = true /\ ge_g a b = true /\ le_g a b = false.
Proof.
  intros a b H. destruct (unset_gt a b H) as (A & B & C). destruct (unset_gt b a) as (D & _); [tauto|]. auto.
Qed.
Print Assumptions C03_unset_never_above_refuted.

(** Subtracting from an unset time sets it to a wrapped-around value instead of keeping it unset. *)
Theorem C03_subtract_from_unset_refuted :
  exists g t, g_set g = false /\ instant g < t /\ g_set (sub_n g t) = true.
Proof. exists gtime_default, 1. ground. Qed.
Print Assumptions C03_subtract_from_unset_refuted.

(** C04.  [gser_reach] ranges over every state of the serializer object, whatever was encoded before. *)
Theorem C04_gps_time_roundtrip : forall s g dest,
  gser_reach s -> g_set g = true ->
  2000 <= g_wn g <= 3000 -> 0 <= g_tow g <= 604800000 -> -1000000 <= g_ns g <= 1000000 ->
  exists s', gserialize s g = Some s' /\ gdeserialize s' dest = Some g.
Proof.
  intros s g dest R S H1 H2 H3.
  destruct (gser_roundtrip_set s g dest (gser_reach_shape s R) S) as (s' & E1 & _ & E2).
  exists s'. split; [exact E1|]. rewrite E2, !clamp_same by assumption. destruct g as [w t n b]. change (b = true) in S. subst b. reflexivity.
Qed.
Print Assumptions C04_gps_time_roundtrip.

(** C04.  Outside the telemetry range each component arrives clamped. *)
Theorem C04_gps_time_clamped : forall s g dest,
  gser_reach s -> g_set g = true ->
  exists s', gserialize s g = Some s' /\
    gdeserialize s' dest =
      Some (mk_gtime (clamp 2000 3000 (g_wn g)) (clamp 0 604800000 (g_tow g))
                     (clamp (-1000000) 1000000 (g_ns g)) true).
Proof.
  intros s g dest R S.
  destruct (gser_roundtrip_set s g dest (gser_reach_shape s R) S) as (s' & E1 & _ & E2). eauto.
Qed.
Print Assumptions C04_gps_time_clamped.

Theorem C04_unset_stays_unset : forall s g dest,
  gser_reach s -> g_set g = false ->
  exists s' d, gserialize s g = Some s' /\ gdeserialize s' dest = Some d /\ g_set d = false.
Proof.
  intros s g dest R S.
  destruct (gser_roundtrip_unset s g dest (gser_reach_shape s R) S) as (s' & d & E1 & _ & E2 & E3). eauto.
Qed.
Print Assumptions C04_unset_stays_unset.

Example C04_case :
  match gser_make with
  | Some s => match gserialize s (gtime_make 2122 345600123 (-999999)) with
              | Some s' => gdeserialize s' gtime_default
              | None => None
              end
  | None => None
  end = Some (gtime_make 2122 345600123 (-999999)).
Proof. vm_compute. reflexivity. Qed.

Example C04_reachable : exists s, gser_reach s.
Proof. destruct gser_make_shape as (s & E & _). exists s. apply gr_init. exact E. Qed.
