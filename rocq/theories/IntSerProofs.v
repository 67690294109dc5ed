From Verif Require Import Base BitArrayModel BitArrayProofs IntSerModel IntSerSpec.

Definition intervals (s : iser) : Z := 2 ^ Z.of_nat (length (is_bits s)) - 1.
Definition extent (s : iser) : Z := is_max s - is_min s.
Definition cstep (s : iser) : Z := (extent s + intervals s - 1) / intervals s.

Lemma pow2_bounds k : 1 <= k <= 32 -> 2 <= 2 ^ k <= 2 ^ 32.
Proof.
  intros H. split.
  - change 2 with (2 ^ 1) at 1. apply Z.pow_le_mono_r; lia.
  - apply Z.pow_le_mono_r; lia.
Qed.

Lemma declared_bits s : declared s -> 1 <= Z.of_nat (length (is_bits s)) <= 32.
Proof. intros (_ & _ & _ & H). destruct (is_ty s); cbn [ity_bits] in H; lia. Qed.

Lemma declared_extent s : declared s -> 0 <= extent s < 2 ^ 32.
Proof.
  intros (H1 & H2 & H3 & _). unfold extent.
  destruct (is_ty s); cbn [ity_min ity_max] in *; lia.
Qed.

Lemma intervals_bounds s : declared s -> 1 <= intervals s < 2 ^ 32.
Proof. intros H. pose proof (pow2_bounds _ (declared_bits s H)). unfold intervals. lia. Qed.

Lemma cpp_range_ok t lo hi v :
  ity_min t <= lo -> lo <= v -> v <= hi -> hi <= ity_max t ->
  (t = SInt -> hi - lo < 2 ^ 31) ->
  cpp_range t lo v = Some (v - lo).
Proof.
  intros H1 H2 H3 H4 H5. unfold cpp_range, u32, uwrap.
  destruct t; cbn [ity_min ity_max] in *; try (rewrite Z.mod_small by lia; reflexivity).
  specialize (H5 eq_refl).
  destruct (Z.ltb_spec (v - lo) (2 ^ 31)); [|lia].
  destruct (Z.leb_spec (- 2 ^ 31) (v - lo)); [|lia]. cbn [andb].
  rewrite Z.mod_small by lia. reflexivity.
Qed.

Lemma ity_conv_id t x : ity_min t <= x <= ity_max t -> ity_conv t x = x.
Proof.
  unfold ity_conv, u32, u8, s32, s8. destruct t; cbn [ity_min ity_max]; intros H.
  - apply uwrap_id; lia.
  - apply swrap_id; [lia|]. change (32 - 1) with 31. lia.
  - apply uwrap_id; lia.
  - apply swrap_id; [lia|]. change (8 - 1) with 7. lia.
Qed.

Lemma mod_mod_pow a b x : 0 <= a <= b -> (x mod 2 ^ b) mod 2 ^ a = x mod 2 ^ a.
Proof.
  intros H. replace b with (a + (b - a)) by lia. rewrite Z.pow_add_r by lia.
  assert (0 < 2 ^ a) by (apply Z.pow_pos_nonneg; lia).
  assert (0 < 2 ^ (b - a)) by (apply Z.pow_pos_nonneg; lia).
  rewrite Z.rem_mul_r by lia. rewrite Z.mul_comm, Z_mod_plus_full. apply Z.mod_mod. lia.
Qed.

Lemma ity_conv_u64 t x : ity_conv t (u64 x) = ity_conv t x.
Proof.
  assert (K : forall w, 0 < w <= 64 -> swrap w (u64 x) = swrap w x).
  { intros w Hw. unfold swrap, u64, uwrap. f_equal.
    rewrite <- (mod_mod_pow w 64 (x mod 2 ^ 64 + 2 ^ (w - 1))) by lia.
    rewrite Zplus_mod_idemp_l. rewrite mod_mod_pow by lia. reflexivity. }
  destruct t; unfold ity_conv, u32, u8, s32, s8; try (apply K; lia);
    unfold u64, uwrap; apply mod_mod_pow; lia.
Qed.

Lemma u32_conv_nonneg t x : 0 <= x <= ity_max t -> u32 (ity_conv t x) = x.
Proof.
  intros H. rewrite ity_conv_id; [apply u32_id|]; destruct t; cbn [ity_min ity_max] in *; lia.
Qed.

Lemma resolution_spec s : declared s -> arith_safe s -> resolution s = Some (cstep s).
Proof.
  intros D A. pose proof (declared_bits s D) as HB. pose proof (intervals_bounds s D) as HN.
  pose proof (declared_extent s D) as HE. pose proof D as (H1 & H2 & H3 & H4).
  unfold resolution.
  rewrite (cpp_range_ok _ _ (is_max s)); try assumption; try lia.
  2:{ intros E. unfold arith_safe in A. rewrite E in A. assumption. }
  fold (extent s). cbv zeta.
  assert (EN : (if Z.of_nat (length (is_bits s)) <? 32
                then u32 (2 ^ Z.of_nat (length (is_bits s)) - 1) else 4294967295) = intervals s).
  { unfold intervals in *. destruct (Z.ltb_spec (Z.of_nat (length (is_bits s))) 32) as [L|L].
    - apply u32_id. lia.
    - assert (E32 : Z.of_nat (length (is_bits s)) = 32) by lia. rewrite E32. reflexivity. }
  rewrite EN. clear EN.
  destruct (Z.eqb_spec (intervals s) 0) as [Hn0|Hn0]; [lia|].
  set (n := intervals s) in *. set (r := extent s) in *.
  assert (HQ : 0 <= r / n <= ity_max (is_ty s)).
  { split; [apply Z.div_pos; lia|].
    unfold arith_safe in A. fold (extent s) in A. fold r in A.
    assert (r / n <= r) by (apply Z.div_le_upper_bound; nia).
    destruct (is_ty s) eqn:ET; cbn [ity_max ity_min] in *; unfold r, extent in *; try lia.
    destruct A as [A|A]; [|lia].
    assert (3 <= n).
    { unfold n, intervals. assert (2 ^ 2 <= 2 ^ Z.of_nat (length (is_bits s))) by (apply Z.pow_le_mono_r; lia). lia. }
    assert ((is_max s - is_min s) / n <= 85) by (apply Z.div_le_upper_bound; nia). lia. }
  rewrite u32_conv_nonneg by assumption.
  assert (HM : 0 <= r / n * n <= r) by (pose proof (Z.mul_div_le r n); nia).
  rewrite (u32_id (r / n * n)) by lia.
  rewrite (ity_conv_id _ (r / n)) by (destruct (is_ty s); cbn [ity_min ity_max] in *; lia).
  unfold cstep. fold n. fold r.
  destruct (Z.ltb_spec (r / n * n) r) as [L|L].
  - assert (2 <= n) by (destruct (Z.eq_dec n 1) as [E1|]; [rewrite E1, Z.div_1_r in L; lia|lia]).
    assert (HQ1 : r / n + 1 <= ity_max (is_ty s)).
    { assert (3 <= n).
      { unfold n, intervals in *.
        destruct (Z.eq_dec (Z.of_nat (length (is_bits s))) 1) as [E1|E1];
          [rewrite E1 in *; change (2 ^ 1) with 2 in *; lia|].
        assert (2 ^ 2 <= 2 ^ Z.of_nat (length (is_bits s))) by (apply Z.pow_le_mono_r; lia). lia. }
      assert (K : 3 * (r / n) <= r - 1) by nia.
      unfold arith_safe in A.
      generalize dependent (r / n). intros q HQ HM L K.
      destruct (is_ty s) eqn:ET; cbn [ity_max ity_min] in *; unfold r, extent in *; lia. }
    rewrite u32_conv_nonneg by lia. f_equal.
    apply Z.div_unique with (r := r mod n - 1); [left|].
    + pose proof (Z.mod_pos_bound r n ltac:(lia)). pose proof (Z.div_mod r n ltac:(lia)). lia.
    + pose proof (Z.div_mod r n ltac:(lia)). lia.
  - rewrite u32_id by (destruct (is_ty s); cbn [ity_max] in *; lia). f_equal.
    apply Z.div_unique with (r := n - 1); [left; lia|].
    pose proof (Z.div_mod r n ltac:(lia)). pose proof (Z.mod_pos_bound r n ltac:(lia)). lia.
Qed.

Lemma cstep_cover s : declared s -> extent s <= cstep s * intervals s.
Proof.
  intros D. pose proof (intervals_bounds s D). unfold cstep.
  pose proof (Z.div_mod (extent s + intervals s - 1) (intervals s) ltac:(lia)).
  pose proof (Z.mod_pos_bound (extent s + intervals s - 1) (intervals s) ltac:(lia)). lia.
Qed.

Lemma cstep_nonneg s : declared s -> 0 <= cstep s.
Proof.
  intros D. pose proof (intervals_bounds s D). pose proof (declared_extent s D).
  unfold cstep. apply Z.div_pos; lia.
Qed.

Lemma cstep_is_step s :
  declared s -> is_step (extent s) (Z.of_nat (length (is_bits s))) (cstep s).
Proof.
  intros D. split; [apply cstep_cover; assumption|]. fold (intervals s).
  intros st' Hst H. pose proof (intervals_bounds s D). unfold cstep.
  assert ((extent s + intervals s - 1) / intervals s < st' + 1); [|lia].
  apply Z.div_lt_upper_bound; nia.
Qed.

Lemma cstep_pos s : declared s -> 0 < extent s -> 1 <= cstep s.
Proof. intros D H. pose proof (cstep_cover s D). pose proof (intervals_bounds s D). nia. Qed.

Lemma cstep_zero s : declared s -> extent s = 0 -> cstep s = 0.
Proof.
  intros D H. unfold cstep. rewrite H. pose proof (intervals_bounds s D). apply Z.div_small. lia.
Qed.

Definition code (s : iser) (v : Z) : Z :=
  if cstep s =? 0 then 0 else (clamp (is_min s) (is_max s) v - is_min s) / cstep s.

Lemma clamp_in lo hi v : lo <= hi -> lo <= clamp lo hi v <= hi.
Proof. unfold clamp; lia. Qed.

Lemma code_range s v : declared s -> 0 <= code s v <= intervals s.
Proof.
  intros D. pose proof (intervals_bounds s D) as HN. unfold code.
  destruct (Z.eqb_spec (cstep s) 0); [lia|].
  pose proof (cstep_nonneg s D). pose proof (cstep_cover s D).
  pose proof D as (_ & HL & _ & _). pose proof (clamp_in _ _ v HL).
  split; [apply Z.div_pos; lia|].
  apply Z.div_le_upper_bound; [lia|]. unfold extent in *. nia.
Qed.

Lemma serialize_spec s v :
  declared s -> arith_safe s ->
  serialize s v = Some (mk_iser (is_ty s) (is_min s) (is_max s) (val_bits (length (is_bits s)) (code s v))).
Proof.
  intros D A. pose proof D as (H1 & H2 & H3 & H4). pose proof (clamp_in _ _ v H2) as HC.
  unfold serialize. cbv zeta.
  assert (EC : (if (if is_max s <? v then is_max s else v) <? is_min s then is_min s
                else if is_max s <? v then is_max s else v) = clamp (is_min s) (is_max s) v).
  { unfold clamp. destruct (Z.ltb_spec (is_max s) v);
      match goal with |- (if ?a <? ?b then _ else _) = _ => destruct (Z.ltb_spec a b) end; lia. }
  rewrite EC. rewrite (cpp_range_ok _ _ (is_max s)); try assumption; try lia.
  2:{ intros E. unfold arith_safe in A. rewrite E in A. assumption. }
  rewrite resolution_spec by assumption.
  fold (code s v). pose proof (code_range s v D) as HR. pose proof (intervals_bounds s D).
  rewrite set_ullong_small by lia.
  destruct (Z.ltb_spec (code s v) (2 ^ Z.of_nat (length (is_bits s)))) as [L|L]; [reflexivity|].
  unfold intervals in *. lia.
Qed.

Lemma deserialize_spec s :
  declared s -> arith_safe s ->
  deserialize s = Some (ity_conv (is_ty s) (is_min s + bits_val (is_bits s) * cstep s)).
Proof.
  intros D A. unfold deserialize. rewrite resolution_spec by assumption. f_equal.
  pose proof (declared_bits s D) as HB.
  rewrite to_ullong_val by lia. rewrite ity_conv_u64.
  rewrite <- ity_conv_u64. rewrite <- (ity_conv_u64 _ (is_min s + bits_val (is_bits s) * cstep s)).
  f_equal. unfold u64, uwrap. rewrite Zplus_mod_idemp_r. reflexivity.
Qed.

Lemma declared_same s b :
  declared s -> length b = length (is_bits s) -> declared (mk_iser (is_ty s) (is_min s) (is_max s) b).
Proof. unfold declared; cbn [is_ty is_min is_max is_bits]. intros D E. rewrite E. exact D. Qed.

Lemma arith_safe_same s b :
  arith_safe s -> length b = length (is_bits s) -> arith_safe (mk_iser (is_ty s) (is_min s) (is_max s) b).
Proof. unfold arith_safe; cbn [is_ty is_min is_max is_bits]. intros D E. rewrite E. exact D. Qed.

Lemma cstep_same s b :
  length b = length (is_bits s) -> cstep (mk_iser (is_ty s) (is_min s) (is_max s) b) = cstep s.
Proof. intros E. unfold cstep, extent, intervals; cbn [is_min is_max is_bits]. rewrite E. reflexivity. Qed.

(** Round trip with the quantisation error. *)
Lemma roundtrip_quantised s v :
  declared s -> arith_safe s ->
  exists s' d st,
    serialize s v = Some s' /\ deserialize s' = Some d /\
    length (is_bits s') = length (is_bits s) /\
    is_step (is_max s - is_min s) (Z.of_nat (length (is_bits s))) st /\
    quantised (is_min s) (is_max s) st v d.
Proof.
  intros D A. pose proof (serialize_spec s v D A) as E.
  eexists. exists (is_min s + code s v * cstep s), (cstep s).
  split; [exact E|].
  pose proof (code_range s v D) as HR. pose proof (intervals_bounds s D) as HN.
  pose proof D as (H1 & H2 & H3 & H4). pose proof (clamp_in _ _ v H2) as HC.
  pose proof (cstep_nonneg s D) as HS.
  set (b := val_bits (length (is_bits s)) (code s v)).
  assert (LB : length b = length (is_bits s)) by apply val_bits_length.
  assert (BV : bits_val b = code s v).
  { apply bits_val_val_bits_small. unfold intervals in *. lia. }
  assert (HK : is_min s + code s v * cstep s <= clamp (is_min s) (is_max s) v
               < is_min s + code s v * cstep s + Z.max (cstep s) 1).
  { unfold code. destruct (Z.eqb_spec (cstep s) 0) as [Z0|NZ].
    - destruct (Z.eq_dec (extent s) 0) as [E0|N0].
      + unfold extent in E0. lia.
      + pose proof (declared_extent s D). pose proof (cstep_pos s D ltac:(lia)). lia.
    - set (x := clamp (is_min s) (is_max s) v - is_min s) in *.
      pose proof (Z.div_mod x (cstep s) NZ). pose proof (Z.mod_pos_bound x (cstep s) ltac:(lia)).
      unfold x in *. lia. }
  split; [|split; [|split]].
  - rewrite deserialize_spec by (try apply declared_same; try apply arith_safe_same; assumption).
    cbn [is_ty is_min is_bits]. rewrite cstep_same by assumption. rewrite BV. f_equal.
    apply ity_conv_id. nia.
  - cbn [is_bits]. assumption.
  - apply cstep_is_step; assumption.
  - split; [exact HK|]. exists (code s v). split; [lia|reflexivity].
Qed.

(** Exactness when the width covers the range. *)
Lemma roundtrip_exact s v :
  declared s -> arith_safe s ->
  is_max s - is_min s <= 2 ^ Z.of_nat (length (is_bits s)) - 1 ->
  exists s', serialize s v = Some s' /\ deserialize s' = Some (clamp (is_min s) (is_max s) v).
Proof.
  intros D A HX. destruct (roundtrip_quantised s v D A) as (s' & d & st & E1 & E2 & _ & [S1 S2] & [Q1 _]).
  exists s'. split; [exact E1|]. rewrite E2. f_equal.
  specialize (S2 1 ltac:(lia) ltac:(lia)). lia.
Qed.

(** The automatically chosen width always covers the range. *)
Lemma log2i_loop_spec fuel : forall n i, 0 <= n < 2 ^ Z.of_nat fuel -> 
  log2i_loop fuel n i = i + (if n =? 0 then 0 else Z.log2 n + 1).
Proof.
  induction fuel as [|f IH]; intros n i Hn; cbn [log2i_loop].
  - cbn [Z.of_nat] in Hn. rewrite Z.pow_0_r in Hn. assert (n = 0) as -> by lia. cbn. lia.
  - rewrite Nat2Z.inj_succ, Z.pow_succ_r in Hn by lia.
    destruct (Z.ltb_spec 0 n) as [H|H].
    + rewrite IH by lia. destruct (Z.eqb_spec n 0); [lia|].
      destruct (Z.eqb_spec (n / 2) 0) as [E|E].
      * assert (n = 1) as -> by lia. cbn. lia.
      * rewrite <- Z.div2_div. rewrite Z.div2_div.
        assert (Z.log2 n = Z.succ (Z.log2 (n / 2))); [|lia].
        rewrite (odd_b2z n) at 1. destruct (Z.odd n); cbn [Z.b2z].
        -- rewrite Z.add_comm. rewrite Z.log2_succ_double by lia. reflexivity.
        -- rewrite Z.add_0_l. rewrite Z.log2_double by lia. reflexivity.
    + assert (n = 0) as -> by lia. cbn. lia.
Qed.

Lemma log2i_covers n : 0 <= n < 2 ^ 32 -> n <= 2 ^ log2i n - 1 /\ 0 <= log2i n <= 32.
Proof.
  intros H. unfold log2i. rewrite log2i_loop_spec by (change (Z.of_nat 32) with 32; lia).
  rewrite Z.add_0_l. destruct (Z.eqb_spec n 0) as [->|N]; [cbn; lia|].
  pose proof (Z.log2_spec n ltac:(lia)) as [L1 L2]. rewrite <- Z.add_1_r in L2.
  pose proof (Z.log2_nonneg n).
  assert (Z.log2 n < 32) by (apply Z.log2_lt_pow2; lia). lia.
Qed.

(** Decoding arbitrary bits: the exact value, and when it is in range. *)
Lemma decode_any s b :
  declared s -> arith_safe s -> length b = length (is_bits s) ->
  deserialize (set_bits s b) = Some (ity_conv (is_ty s) (is_min s + bits_val b * cstep s)).
Proof.
  intros D A L. unfold set_bits, assign. rewrite L, Nat.eqb_refl.
  rewrite deserialize_spec by (try apply declared_same; try apply arith_safe_same; assumption).
  cbn [is_ty is_min is_bits]. rewrite cstep_same by assumption. reflexivity.
Qed.

Lemma decode_in_range_iff s b st :
  declared s -> arith_safe s -> length b = length (is_bits s) ->
  is_step (is_max s - is_min s) (Z.of_nat (length (is_bits s))) st ->
  0 <= st ->
  is_min s + (2 ^ Z.of_nat (length (is_bits s)) - 1) * st <= ity_max (is_ty s) ->
  exists d, deserialize (set_bits s b) = Some d /\ is_min s <= d /\
            (d <= is_max s <-> bits_val b * st <= is_max s - is_min s).
Proof.
  intros D A L [S1 S2] S0 HM.
  assert (st = cstep s) as ->.
  { pose proof (cstep_is_step s D) as [C1 C2]. pose proof (cstep_nonneg s D).
    specialize (S2 (cstep s) ltac:(lia) C1). specialize (C2 st S0 S1). lia. }
  exists (is_min s + bits_val b * cstep s).
  pose proof (bits_val_range b) as HB. rewrite L in HB. pose proof (cstep_nonneg s D).
  pose proof D as (H1 & H2 & H3 & H4).
  split; [|split; [nia|lia]].
  rewrite decode_any by assumption. f_equal. apply ity_conv_id. nia.
Qed.

Lemma decode_always_in_range s b :
  declared s -> arith_safe s -> length b = length (is_bits s) ->
  is_max s - is_min s = 2 ^ Z.of_nat (length (is_bits s)) - 1 ->
  exists d, deserialize (set_bits s b) = Some d /\ is_min s <= d <= is_max s.
Proof.
  intros D A L HX. pose proof (bits_val_range b) as HB. rewrite L in HB.
  pose proof (intervals_bounds s D).
  assert (cstep s = 1) as C1.
  { unfold cstep, extent. rewrite HX. fold (intervals s).
    symmetry. apply Z.div_unique with (r := intervals s - 1); lia. }
  pose proof D as (H1 & H2 & H3 & H4).
  exists (is_min s + bits_val b). rewrite decode_any by assumption. rewrite C1.
  split; [f_equal; rewrite Z.mul_1_r; apply ity_conv_id; lia | lia].
Qed.
