From Verif Require Import Base BitArrayModel.

Lemma pow2_le a b : (a <= b)%nat -> 2 ^ Z.of_nat a <= 2 ^ Z.of_nat b.
Proof. intros H. apply Z.pow_le_mono_r; lia. Qed.

Lemma val_num_bits_le fuel : forall i0 bs d size,
  bs = (i0 + fuel)%nat -> (size <= bs)%nat -> d < 2 ^ Z.of_nat bs ->
  ((val_num_bits fuel i0 bs d <= size)%nat <-> (i0 <= size)%nat /\ d < 2 ^ Z.of_nat size).
Proof.
  induction fuel as [|f IH]; intros i0 bs d size Hbs Hs Hd; cbn [val_num_bits].
  - split; intros H.
    + assert (size = bs) by lia. subst size. split; [lia|assumption].
    + lia.
  - destruct (Z.ltb_spec d (2 ^ Z.of_nat i0)) as [H|H].
    + split; intros K; [|lia]. split; [assumption|].
      pose proof (pow2_le i0 size K). lia.
    + rewrite IH by (try lia; assumption). split.
      * intros [K1 K2]; split; [lia|assumption].
      * intros [K1 K2]. split; [|assumption].
        destruct (Nat.eq_dec i0 size) as [->|]; lia.
Qed.

Lemma ull_to_double_small v : 0 <= v < 2 ^ 53 -> ull_to_double v = v.
Proof. intros H. unfold ull_to_double. destruct (Z.ltb_spec v (2 ^ 53)); lia. Qed.

Lemma ull_to_double_ge v : 0 < v -> 2 ^ Z.log2 v <= ull_to_double v.
Proof.
  intros Hv. pose proof (Z.log2_spec v Hv) as [H1 H2].
  unfold ull_to_double. destruct (Z.ltb_spec v (2 ^ 53)) as [H|H]; [assumption|].
  cbv zeta.
  assert (HL : 53 <= Z.log2 v).
  { destruct (Z.le_gt_cases 53 (Z.log2 v)); [assumption|].
    assert (2 ^ Z.succ (Z.log2 v) <= 2 ^ 53) by (apply Z.pow_le_mono_r; lia). lia. }
  set (k := Z.log2 v - 52).
  assert (Hk : 0 < 2 ^ k) by (apply Z.pow_pos_nonneg; lia).
  assert (E : 2 ^ Z.log2 v = 2 ^ 52 * 2 ^ k).
  { rewrite <- Z.pow_add_r by lia. f_equal. lia. }
  set (q' := if v mod 2 ^ k <? 2 ^ (k - 1) then v / 2 ^ k
             else if 2 ^ (k - 1) <? v mod 2 ^ k then v / 2 ^ k + 1
                  else if Z.even (v / 2 ^ k) then v / 2 ^ k else v / 2 ^ k + 1).
  assert (Hq : v / 2 ^ k <= q').
  { unfold q'. destruct (_ <? _); [lia|]. destruct (_ <? _); [lia|]. destruct (Z.even _); lia. }
  assert (2 ^ 52 <= v / 2 ^ k).
  { apply Z.div_le_lower_bound; lia. }
  rewrite E. apply Z.mul_le_mono_nonneg_r; lia.
Qed.

(** On values a double holds exactly, the space check is exact. *)
Lemma num_val_bits_ok64_small size v :
  0 <= v < 2 ^ 53 -> num_val_bits_ok64 size v = (v <? 2 ^ Z.of_nat size).
Proof.
  intros H. unfold num_val_bits_ok64. rewrite ull_to_double_small by assumption.
  destruct (Nat.leb_spec size 64) as [Hs|Hs].
  - pose proof (val_num_bits_le 64 0 64 v size eq_refl Hs) as K.
    assert (v < 2 ^ Z.of_nat 64) by (change (2 ^ Z.of_nat 64) with (2 ^ 64); lia).
    specialize (K H0).
    destruct (Z.ltb_spec v (2 ^ Z.of_nat size)); destruct (Nat.ltb_spec size (val_num_bits 64 0 64 v)); try reflexivity.
    + assert (val_num_bits 64 0 64 v <= size)%nat by (apply K; split; lia). lia.
    + assert (v < 2 ^ Z.of_nat size) by (apply K; lia). lia.
  - pose proof (val_num_bits_le 64 0 64 v 64 eq_refl (le_n _)) as K.
    assert (v < 2 ^ Z.of_nat 64) by (change (2 ^ Z.of_nat 64) with (2 ^ 64); lia).
    specialize (K H0).
    assert (val_num_bits 64 0 64 v <= 64)%nat by (apply K; split; lia).
    pose proof (pow2_le 64 size ltac:(lia)).
    destruct (Z.ltb_spec v (2 ^ Z.of_nat size)); [|lia].
    destruct (Nat.ltb_spec size (val_num_bits 64 0 64 v)); [lia|reflexivity].
Qed.

Lemma val_num_bits_bound fuel : forall i0 bs d,
  bs = (i0 + fuel)%nat ->
  (i0 <= val_num_bits fuel i0 bs d <= bs)%nat /\
  ((val_num_bits fuel i0 bs d < bs)%nat -> d < 2 ^ Z.of_nat (val_num_bits fuel i0 bs d)).
Proof.
  induction fuel as [|f IH]; intros i0 bs d Hbs; cbn [val_num_bits].
  - split; lia.
  - destruct (Z.ltb_spec d (2 ^ Z.of_nat i0)).
    + split; [lia|intros _; assumption].
    + destruct (IH (S i0) bs d) as [H1 H2]; [lia|]. split; [lia|assumption].
Qed.

(** An accepted value fits: the check never lets a too large value through. *)
Lemma num_val_bits_ok64_sound size v :
  0 <= v < 2 ^ 64 -> num_val_bits_ok64 size v = true -> v < 2 ^ Z.of_nat size.
Proof.
  intros Hv H. unfold num_val_bits_ok64 in H.
  set (r := val_num_bits 64 0 64 (ull_to_double v)) in *.
  destruct (Nat.ltb_spec size r) as [|Hr]; [discriminate|].
  destruct (val_num_bits_bound 64 0 64 (ull_to_double v) eq_refl) as [B1 B2]. fold r in B1, B2.
  pose proof (pow2_le r size Hr).
  destruct (Nat.eq_dec r 64) as [E|E].
  - rewrite E in *. change (2 ^ Z.of_nat 64) with (2 ^ 64) in *. lia.
  - specialize (B2 ltac:(lia)).
    destruct (Z.eq_dec v 0) as [->|Hv0]; [apply Z.pow_pos_nonneg; lia|].
    pose proof (ull_to_double_ge v ltac:(lia)).
    assert (2 ^ Z.log2 v < 2 ^ Z.of_nat r) by lia.
    apply Z.pow_lt_mono_r_iff in H2; [|lia|lia].
    pose proof (Z.log2_spec v ltac:(lia)) as [_ K].
    assert (2 ^ Z.succ (Z.log2 v) <= 2 ^ Z.of_nat r) by (apply Z.pow_le_mono_r; lia). lia.
Qed.

Lemma repeat_false_val_bits m : repeat false m = val_bits m 0.
Proof. induction m as [|m IH]; cbn [repeat val_bits]; [reflexivity|]. rewrite IH. reflexivity. Qed.

Lemma write_loop_spec fuel : forall pre m v,
  0 <= v < 2 ^ Z.of_nat m -> v < 2 ^ Z.of_nat fuel ->
  write_loop fuel (pre ++ repeat false m) (length pre) v = Some (pre ++ val_bits m v).
Proof.
  induction fuel as [|f IH]; intros pre m v Hm Hf; cbn [write_loop].
  - cbn [Z.of_nat] in Hf. rewrite Z.pow_0_r in Hf. assert (v = 0) as -> by lia.
    cbn. rewrite repeat_false_val_bits. reflexivity.
  - destruct (Z.leb_spec v 0) as [H|H].
    + assert (v = 0) as -> by lia. rewrite repeat_false_val_bits. reflexivity.
    + destruct m as [|m]; [cbn [Z.of_nat] in Hm; rewrite Z.pow_0_r in Hm; lia|].
      rewrite upd_app_r by lia. rewrite Nat.sub_diag. cbn [repeat upd].
      rewrite Nat2Z.inj_succ, Z.pow_succ_r in Hm, Hf by lia.
      specialize (IH (pre ++ [Z.odd v]) m (v / 2)).
      rewrite app_length in IH. cbn [length] in IH. rewrite Nat.add_1_r in IH.
      rewrite <- !app_assoc in IH. cbn [app] in IH. cbn [val_bits]. apply IH; lia.
Qed.

Lemma set_ullong_ok arr v :
  0 <= v < 2 ^ 64 -> num_val_bits_ok64 (length arr) v = true ->
  set_ullong arr v = Some (true, val_bits (length arr) v).
Proof.
  intros Hv H. unfold set_ullong. rewrite H.
  pose proof (num_val_bits_ok64_sound _ _ Hv H).
  pose proof (write_loop_spec 64 [] (length arr) v) as K. cbn [app length] in K.
  rewrite K; [reflexivity|lia|]. change (2 ^ Z.of_nat 64) with (2 ^ 64). lia.
Qed.

Lemma set_ullong_small arr v :
  0 <= v < 2 ^ 53 ->
  set_ullong arr v = if v <? 2 ^ Z.of_nat (length arr)
                     then Some (true, val_bits (length arr) v) else Some (false, arr).
Proof.
  intros Hv. pose proof (num_val_bits_ok64_small (length arr) v Hv) as E.
  destruct (v <? 2 ^ Z.of_nat (length arr)) eqn:L.
  - apply set_ullong_ok; [lia|assumption].
  - unfold set_ullong. rewrite E. reflexivity.
Qed.

Lemma set_ullong_defined arr v : 0 <= v < 2 ^ 64 -> exists r, set_ullong arr v = Some r.
Proof.
  intros Hv. destruct (num_val_bits_ok64 (length arr) v) eqn:E.
  - eexists; apply set_ullong_ok; assumption.
  - unfold set_ullong. rewrite E. eexists; reflexivity.
Qed.

Lemma to_ullong_loop_spec l : forall exp val,
  to_ullong_loop l (u64 exp) (u64 val) = u64 (val + exp * bits_val l).
Proof.
  induction l as [|b l IH]; intros exp val; cbn [to_ullong_loop bits_val].
  - f_equal. lia.
  - assert (E1 : u64 (u64 exp * 2) = u64 (exp * 2)).
    { unfold u64, uwrap. rewrite Zmult_mod_idemp_l. reflexivity. }
    assert (E2 : u64 (u64 val + Z.b2z b * u64 exp) = u64 (val + Z.b2z b * exp)).
    { unfold u64, uwrap. rewrite Zplus_mod_idemp_l.
      rewrite Zplus_mod, Zmult_mod_idemp_r, <- Zplus_mod. reflexivity. }
    rewrite E1, E2, IH. f_equal. lia.
Qed.

Lemma to_ullong_val l : (length l <= 64)%nat -> to_ullong l = bits_val l.
Proof.
  intros H. unfold to_ullong.
  change 1 with (u64 1). change 0 with (u64 0) at 1.
  rewrite to_ullong_loop_spec. pose proof (bits_val_range l).
  pose proof (pow2_le _ _ H). change (2 ^ Z.of_nat 64) with (2 ^ 64) in *.
  rewrite u64_id by lia. lia.
Qed.
