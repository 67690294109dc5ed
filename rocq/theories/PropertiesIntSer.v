From Verif Require Import Base BitArrayModel IntSerModel IntSerSpec BitArrayProofs IntSerProofs.

(** C01.  Encoding any value and decoding it gives the declared quantisation of the clamped value,
    and the encoder always replaces the old bits. *)
Theorem C01_integer_roundtrip_quantised : forall s v,
  declared s -> arith_safe s ->
  exists s' d st,
    serialize s v = Some s' /\ deserialize s' = Some d /\
    length (is_bits s') = length (is_bits s) /\
    is_step (is_max s - is_min s) (Z.of_nat (length (is_bits s))) st /\
    quantised (is_min s) (is_max s) st v d.
Proof. exact roundtrip_quantised. Qed.
Print Assumptions C01_integer_roundtrip_quantised.

Example C01_quantised_case :
  let s := mk_iser UChar 3 250 [false; true; true; false] in
  declared s /\ arith_safe s /\
  (exists s', serialize s 100 = Some s' /\ is_bits s' = [true; false; true; false] /\ deserialize s' = Some 88).
Proof. cbv zeta. unfold declared, arith_safe. cbn [is_ty]. ground. eexists. split; [vm_compute; reflexivity|]. ground. Qed.

Theorem C01_integer_roundtrip_exact : forall s v,
  declared s -> arith_safe s ->
  is_max s - is_min s <= 2 ^ Z.of_nat (length (is_bits s)) - 1 ->
  exists s', serialize s v = Some s' /\ deserialize s' = Some (clamp (is_min s) (is_max s) v).
Proof. exact roundtrip_exact. Qed.
Print Assumptions C01_integer_roundtrip_exact.

Example C01_exact_case :
  let s := mk_iser SInt (-90) 10 (repeat false 7) in
  declared s /\ arith_safe s /\ is_max s - is_min s <= 2 ^ Z.of_nat (length (is_bits s)) - 1 /\
  (exists s', serialize s (-200) = Some s' /\ deserialize s' = Some (-90)) /\
  (exists s', serialize s (-5) = Some s' /\ deserialize s' = Some (-5)).
Proof.
  cbv zeta. unfold declared, arith_safe. cbn [is_ty]. ground; (eexists; split; [vm_compute; reflexivity|]); ground.
Qed.

(** C01.  The width chosen when none is given covers the range, so such fields are exact. *)
Theorem C01_auto_width_covers : forall n,
  0 <= n < 2 ^ 32 -> n <= 2 ^ log2i n - 1 /\ 0 <= log2i n <= 32.
Proof. exact log2i_covers. Qed.
Print Assumptions C01_auto_width_covers.

(** C43 is false: a signed char -128..127 in one bit decodes 127 wrongly; the default int range
    overflows; [set_ullong] refuses some values above 2^53 that fit. *)
Theorem C43_signed_char_one_bit_refuted :
  exists s v s' d, declared s /\ serialize s v = Some s' /\ deserialize s' = Some d /\
    forall st, is_step (is_max s - is_min s) (Z.of_nat (length (is_bits s))) st ->
               ~ quantised (is_min s) (is_max s) st v d.
Proof.
  exists (mk_iser SChar (-128) 127 [false]), 127. eexists. eexists.
  split; [unfold declared; ground|]. split; [vm_compute; reflexivity|]. split; [vm_compute; reflexivity|].
  intros st [S1 S2] [Q _]. specialize (S2 255 ltac:(lia) ltac:(cbn; lia)). cbn in *. unfold clamp in Q. lia.
Qed.
Print Assumptions C43_signed_char_one_bit_refuted.

Theorem C43_default_int_overflow_refuted :
  iser_make_auto SInt (ity_min SInt) (ity_max SInt) = None.
Proof. reflexivity. Qed.
Print Assumptions C43_default_int_overflow_refuted.

(** C01.  The store primitive: exact on values below 2^53, never out of bounds, and whatever it
    accepts fits; but it refuses some larger values that fit. *)
Theorem C01_store_exact : forall arr v,
  0 <= v < 2 ^ 53 ->
  set_ullong arr v = if v <? 2 ^ Z.of_nat (length arr)
                     then Some (true, val_bits (length arr) v) else Some (false, arr).
Proof. exact set_ullong_small. Qed.
Print Assumptions C01_store_exact.

Theorem C01_store_never_out_of_bounds : forall arr v,
  0 <= v < 2 ^ 64 -> exists r, set_ullong arr v = Some r.
Proof. exact set_ullong_defined. Qed.
Print Assumptions C01_store_never_out_of_bounds.

Theorem C43_store_full_range_refuted :
  exists arr v, 0 <= v < 2 ^ Z.of_nat (length arr) /\ (length arr <= 64)%nat /\
                set_ullong arr v = Some (false, arr).
Proof. exists (repeat true 60), (2 ^ 60 - 1). ground. Qed.
Print Assumptions C43_store_full_range_refuted.

(** C02.  Full statement: decoding any bits lands in the declared range.  It is false. *)
Theorem C02_decode_in_range_refuted :
  exists s b d, iser_make_auto UChar 0 12 = Some s /\ declared s /\ arith_safe s /\
    length b = length (is_bits s) /\ deserialize (set_bits s b) = Some d /\ ~ (is_min s <= d <= is_max s).
Proof.
  eexists. exists [true; true; true; true], 15. split; [vm_compute; reflexivity|].
  unfold declared, arith_safe. cbn [is_ty]. ground. cbn. lia.
Qed.
Print Assumptions C02_decode_in_range_refuted.

(** C02, what holds: exactly which patterns decode in range ... *)
Theorem C02_decode_in_range_iff_partial : forall s b st,
  declared s -> arith_safe s -> length b = length (is_bits s) ->
  is_step (is_max s - is_min s) (Z.of_nat (length (is_bits s))) st ->
  0 <= st ->
  is_min s + (2 ^ Z.of_nat (length (is_bits s)) - 1) * st <= ity_max (is_ty s) ->
  exists d, deserialize (set_bits s b) = Some d /\ is_min s <= d /\
            (d <= is_max s <-> bits_val b * st <= is_max s - is_min s).
Proof. exact decode_in_range_iff. Qed.
Print Assumptions C02_decode_in_range_iff_partial.

Example C02_iff_case :
  let s := mk_iser UChar 0 12 (repeat false 4) in
  declared s /\ arith_safe s /\ is_step (is_max s - is_min s) 4 1 /\
  is_min s + (2 ^ 4 - 1) * 1 <= ity_max (is_ty s).
Proof.
  cbv zeta. unfold declared, arith_safe, is_step. cbn [is_ty is_max is_min]. ground.
  intros st' _ H. change (2 ^ 4 - 1) with 15 in H. lia.
Qed.

(** ... and fields that use their whole width are always in range. *)
Theorem C02_decode_full_width_in_range : forall s b,
  declared s -> arith_safe s -> length b = length (is_bits s) ->
  is_max s - is_min s = 2 ^ Z.of_nat (length (is_bits s)) - 1 ->
  exists d, deserialize (set_bits s b) = Some d /\ is_min s <= d <= is_max s.
Proof. exact decode_always_in_range. Qed.
Print Assumptions C02_decode_full_width_in_range.

Example C02_full_width_case :
  let s := mk_iser UChar 0 255 (repeat false 8) in
  declared s /\ arith_safe s /\ is_max s - is_min s = 2 ^ Z.of_nat (length (is_bits s)) - 1.
Proof. cbv zeta. unfold declared, arith_safe. cbn [is_ty]. ground. Qed.
