(** * Fields as text on the console *)
From Verif Require Import Base IntSerModel GPSTimeModel FloatSerModel PrintModel PrintSpec PrintProofs PrintFloatProofs.
From Coq Require Import Reals Lra.
From Flocq Require Import Core IEEE754.BinarySingleNaN.
Local Open Scope Z_scope.

(** * C112 Printing a field stays inside its text buffer *)
Theorem C112_integers_partial : forall t z, ity_min t <= z <= ity_max t -> exists s, print_int t z = Some s.
Proof. exact int_fits. Qed.
Print Assumptions C112_integers_partial.
Theorem C112_booleans_partial : forall b, exists s, print_bool b = Some s.
Proof. intros b. destruct (bool_text b) as (s & E & _). eauto. Qed.
Print Assumptions C112_booleans_partial.
Theorem C112_gps_time_partial : forall t, 0 <= g_wn t < 65536 /\ 0 <= g_tow t < 604800000 /\ -1000000 <= g_ns t <= 1000000 -> exists s, print_gps t = Some s.
Proof. exact gps_fits. Qed.
Print Assumptions C112_gps_time_partial.
Theorem C112_floats_partial : forall prec emax (x : binary_float prec emax), is_finite x = false \/ (-99999 < B2R x < 999999)%R -> exists s, print_float x = Some s.
Proof. intros prec emax. exact float_fits. Qed.
Print Assumptions C112_floats_partial.
Theorem C112_vectors_partial : forall prec emax (l : list (binary_float prec emax)), l <> [] ->
  (forall x, In x l -> is_finite x = false \/ (-9999 < B2R x < 99999)%R) -> exists s, print_vector l = Some s.
Proof. intros prec emax. exact vector_fits. Qed.
Print Assumptions C112_vectors_partial.
(** larger numbers do not *)
Theorem C112_large_floats_refuted : forall prec emax (x : binary_float prec emax), is_finite x = true -> (1000000 <= B2R x \/ B2R x <= -100000)%R -> print_float x = None.
Proof. intros prec emax. exact float_overflows. Qed.
Print Assumptions C112_large_floats_refuted.
Theorem C112_large_vectors_refuted : forall prec emax (l : list (binary_float prec emax)), l <> [] ->
  (forall x, In x l -> is_finite x = true /\ (100000 <= B2R x \/ B2R x <= -10000)%R) -> print_vector l = None.
Proof. intros prec emax. exact vector_overflows. Qed.
Print Assumptions C112_large_vectors_refuted.
(** a position on orbit: 3.95, 3.95 and 3.95 thousand kilometres *)
Theorem C112_position_refuted : print_vector [f64 3950000 1; f64 3950000 1; f64 3950000 1] = None /\ 6771000 * 6771000 <= 3 * (3950000 * 3950000) <= 6921000 * 6921000.
Proof. vm_compute. repeat split; discriminate. Qed.
Print Assumptions C112_position_refuted.
(** any time of week and nanoseconds the types can hold *)
Theorem C112_gps_time_refuted : let t := mk_gtime 65535 2147483648 (- 2147483648) true in gtime_typed t /\ print_gps t = None.
Proof. cbv zeta. split; [unfold gtime_typed; cbn; lia|vm_compute; reflexivity]. Qed.
Print Assumptions C112_gps_time_refuted.
Example C112_case : print_int SInt (-2147483648) <> None /\ print_gps (mk_gtime 65535 604799999 (-1000000) true) <> None /\ print_float (f32 (-99998) 1) <> None /\
  print_vector [f32 99998 1; f32 (-9998) 1; f32 1 3] <> None /\ print_float (f32 1000000 1) = None.
Proof. vm_compute. repeat split; discriminate. Qed.

(** * C113 A printed value can be typed back in *)
Theorem C113_integers_partial : forall t z s, ity_min t <= z <= ity_max t -> z <= 2147483647 -> print_int t z = Some s -> read_int t s = Stored z.
Proof. exact int_reads_back. Qed.
Print Assumptions C113_integers_partial.
Theorem C113_booleans_partial : forall b, exists s, print_bool b = Some s /\ read_bool s = Stored b.
Proof. exact bool_text. Qed.
Print Assumptions C113_booleans_partial.
(** the text of a floating point number is a decimal within half a millionth of it *)
Theorem C113_floats_shown_partial : forall prec emax (x : binary_float prec emax), is_finite x = true ->
  exists r, shows (fmt_f x) r /\ (Rabs (r - B2R x) <= 1 / 2000000)%R.
Proof. intros prec emax. exact float_shown. Qed.
Print Assumptions C113_floats_shown_partial.
Theorem C113_vectors_partial : forall prec emax A (conv : list Z -> A) (l : list (binary_float prec emax)) s, print_vector l = Some s ->
  read_vector conv (length l) s = Stored (map (fun x => conv (fmt_f x)) l).
Proof. intros prec emax A. exact vector_reads_back. Qed.
Print Assumptions C113_vectors_partial.
Theorem C113_gps_time_partial : forall t old s, 0 <= g_wn t < 65536 -> 0 <= g_tow t < 4294967296 -> - 2147483648 <= g_ns t < 2147483648 -> print_gps t = Some s ->
  read_gps old s = Stored (mk_gtime (g_wn t) (g_tow t) (g_ns t) (g_set old)).
Proof. exact gps_reads_back. Qed.
Print Assumptions C113_gps_time_partial.
(** unsigned integers above the largest signed one cannot be scanned *)
Theorem C113_large_unsigned_refuted : forall z s, 2147483648 <= z -> print_int UInt z = Some s -> read_int UInt s = Undefined.
Proof. exact large_unsigned. Qed.
Print Assumptions C113_large_unsigned_refuted.
(** a GPS time typed into a field that is not set never sets it *)
Theorem C113_gps_time_stays_unset_refuted : forall old l t, g_set old = false -> read_gps old l = Stored t -> g_set t = false.
Proof. intros old l t H R. rewrite (gps_flag_kept old l t R). exact H. Qed.
Print Assumptions C113_gps_time_stays_unset_refuted.
Example C113_case : print_int UInt 2147483647 <> None /\ print_int UInt 4294967295 <> None /\
  read_gps (mk_gtime 0 0 0 false) [50; 48; 48; 48; 44; 49; 48; 44; 45; 53] = Stored (mk_gtime 2000 10 (-5) false) /\
  print_vector [f64 1 2; f64 (-3) 1; f64 0 1] = Some [48; 46; 53; 48; 48; 48; 48; 48; 44; 45; 51; 46; 48; 48; 48; 48; 48; 48; 44; 48; 46; 48; 48; 48; 48; 48; 48; 44].
Proof. vm_compute. repeat split; discriminate. Qed.

(** * C114 A value typed in is within the limits of its field or rejected *)
Theorem C114_within_type_partial : forall t l z, read_int t l = Stored z -> ity_min t <= z <= ity_max t.
Proof. exact read_in_type. Qed.
Print Assumptions C114_within_type_partial.
(** the limits a field was declared with are not consulted: every number the type can hold is stored *)
Theorem C114_limits_ignored_refuted : forall t z, ity_min t <= z <= ity_max t -> 0 <= z <= 2147483647 -> read_int t (digits z) = Stored z.
Proof. exact limits_ignored. Qed.
Print Assumptions C114_limits_ignored_refuted.
(** a number that does not fit the type is stored as another one: 300 as 44 *)
Theorem C114_wraps_refuted : read_int UChar [51; 48; 48] = Stored 44.
Proof. vm_compute. reflexivity. Qed.
Print Assumptions C114_wraps_refuted.
Example C114_case : read_int UChar (digits 200) = Stored 200 /\ dec_val (digits 200) = 200.
Proof. vm_compute. repeat split. Qed.

(** * C115 A vector typed in has the right number of components or is rejected *)
Theorem C115_counted_partial : forall A (conv : list Z -> A) n l, Forall token l -> (length l <= n)%nat ->
  read_vector conv n (listed l) = if (length l =? n)%nat then Stored (map conv l) else Rejected.
Proof. intros A. exact vector_read. Qed.
Print Assumptions C115_counted_partial.
(** more components are written past the end of the array *)
Theorem C115_too_many_refuted : forall A (conv : list Z -> A) n l, Forall token l -> (n < length l)%nat -> read_vector conv n (listed l) = Undefined.
Proof. intros A. exact vector_too_long. Qed.
Print Assumptions C115_too_many_refuted.
Example C115_case : Forall token [[49]; [50]; [51]; [52]] /\ read_vector dec_val 4 (listed [[49]; [50]; [51]; [52]]) = Stored [1; 2; 3; 4].
Proof. split; [|vm_compute; reflexivity]. repeat constructor; try discriminate; intros H; cbn in H; lia. Qed.
