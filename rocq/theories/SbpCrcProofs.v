(** The checksum of the GPS link: the table computes the polynomial remainder, and the remainder notices every burst. *)
From Verif Require Import Base SbpModel SbpSpec.

Lemma lxor_small a b n : 0 <= n -> 0 <= a < 2 ^ n -> 0 <= b < 2 ^ n -> 0 <= Z.lxor a b < 2 ^ n.
Proof.
  intros Hn Ha Hb. assert (H : 0 <= Z.lxor a b) by (apply Z.lxor_nonneg; lia). split; [assumption|].
  assert (E : Z.shiftr (Z.lxor a b) n = 0).
  { rewrite Z.shiftr_lxor, !Z.shiftr_div_pow2, (Z.div_small a), (Z.div_small b) by lia. reflexivity. }
  rewrite Z.shiftr_div_pow2 in E by lia. apply Z.div_small_iff in E; [|apply Z.pow_nonzero; lia].
  assert (0 < 2 ^ n) by (apply Z.pow_pos_nonneg; lia). lia.
Qed.

Lemma double_lxor a c : (2 * Z.lxor a c) mod 65536 = Z.lxor ((2 * a) mod 65536) ((2 * c) mod 65536).
Proof.
  change 65536 with (2 ^ 16). rewrite <- !Z.land_ones by lia.
  rewrite !(Z.mul_comm 2). change 2 with (2 ^ 1). rewrite <- !Z.shiftl_mul_pow2 by lia. change (2 ^ 1) with 2.
  rewrite Z.shiftl_lxor. apply Z.bits_inj'. intros i Hi. rewrite Z.land_spec, !Z.lxor_spec, !Z.land_spec.
  destruct (Z.testbit (Z.ones 16) i); rewrite ?Bool.andb_true_r, ?Bool.andb_false_r; reflexivity.
Qed.

Lemma divide_range r b : 0 <= r < 65536 -> 0 <= divide r b < 65536.
Proof.
  intros H. unfold divide. assert (0 <= (2 * r) mod 65536 < 65536) by lia.
  destruct (xorb (Z.testbit r 15) b); [|lia]. apply (lxor_small _ _ 16); lia.
Qed.

Lemma divide_linear a c p q : divide (Z.lxor a c) (xorb p q) = Z.lxor (divide a p) (divide c q).
Proof.
  unfold divide. rewrite Z.lxor_spec, double_lxor.
  set (x := (2 * a) mod 65536). set (y := (2 * c) mod 65536).
  destruct (Z.testbit a 15), (Z.testbit c 15), p, q; cbn [xorb];
    rewrite ?(Z.lxor_assoc x 4129), ?(Z.lxor_comm 4129), ?Z.lxor_assoc, ?Z.lxor_nilpotent, ?Z.lxor_0_r; reflexivity.
Qed.

Fixpoint xorl (a b : list bool) : list bool :=
  match a, b with x :: a', y :: b' => xorb x y :: xorl a' b' | _, _ => [] end.

Lemma fold_linear l1 : forall l2 a c, length l1 = length l2 ->
  fold_left divide (xorl l1 l2) (Z.lxor a c) = Z.lxor (fold_left divide l1 a) (fold_left divide l2 c).
Proof.
  induction l1 as [|x l1 IH]; intros [|y l2] a c H; cbn [length] in H; try lia; cbn [xorl fold_left]; [reflexivity|].
  rewrite divide_linear. apply IH. lia.
Qed.

Lemma fold_range l : forall r, 0 <= r < 65536 -> 0 <= fold_left divide l r < 65536.
Proof. induction l as [|b l IH]; intros r H; cbn [fold_left]; [assumption|]. apply IH, divide_range, H. Qed.

Definition below (n : nat) (f : Z -> bool) : bool := forallb f (map Z.of_nat (seq 0 n)).
Lemma below_ok n f x : below n f = true -> 0 <= x < Z.of_nat n -> f x = true.
Proof.
  intros H Hx. unfold below in H. rewrite forallb_forall in H. apply H.
  apply in_map_iff. exists (Z.to_nat x). split; [lia|]. apply in_seq. lia.
Qed.

Lemma tab_spec i : 0 <= i < 256 -> nth (Z.to_nat i) crc16tab 0 = fold_left divide (byte_bits i) 0.
Proof.
  intros H. apply Z.eqb_eq.
  refine (below_ok 256 (fun i => nth (Z.to_nat i) crc16tab 0 =? fold_left divide (byte_bits i) 0) i _ H). vm_compute. reflexivity.
Qed.
Lemma zeros_hi h : 0 <= h < 256 -> fold_left divide (repeat false 8) (256 * h) = fold_left divide (byte_bits h) 0.
Proof.
  intros H. apply Z.eqb_eq.
  refine (below_ok 256 (fun h => fold_left divide (repeat false 8) (256 * h) =? fold_left divide (byte_bits h) 0) h _ H). vm_compute. reflexivity.
Qed.
Lemma zeros_lo l : 0 <= l < 256 -> fold_left divide (repeat false 8) l = 256 * l.
Proof.
  intros H. apply Z.eqb_eq.
  refine (below_ok 256 (fun l => fold_left divide (repeat false 8) l =? 256 * l) l _ H). vm_compute. reflexivity.
Qed.

Lemma xorl_zeros_l l : xorl (repeat false (length l)) l = l.
Proof. induction l as [|b l IH]; cbn [length repeat xorl]; [reflexivity|]. rewrite IH, Bool.xorb_false_l. reflexivity. Qed.
Lemma byte_bits_lxor x y : byte_bits (Z.lxor x y) = xorl (byte_bits x) (byte_bits y).
Proof. unfold byte_bits. cbn [map xorl]. rewrite !Z.lxor_spec. reflexivity. Qed.

Lemma split_lxor c : 0 <= c < 65536 -> c = Z.lxor (256 * (c / 256)) (c mod 256).
Proof.
  intros H. apply Z.bits_inj'. intros i Hi. rewrite Z.lxor_spec.
  replace (256 * (c / 256)) with (Z.shiftl (Z.shiftr c 8) 8)
    by (rewrite Z.shiftl_mul_pow2, Z.shiftr_div_pow2 by lia; change (2 ^ 8) with 256; lia).
  change 256 with (2 ^ 8). rewrite <- Z.land_ones by lia. rewrite Z.land_spec.
  destruct (Z.ltb_spec i 8).
  - rewrite Z.shiftl_spec_low by lia. rewrite Z.ones_spec_low by lia. rewrite Bool.xorb_false_l, Bool.andb_true_r. reflexivity.
  - rewrite Z.shiftl_spec, Z.shiftr_spec by lia. rewrite Z.ones_spec_high by lia.
    rewrite Bool.andb_false_r, Bool.xorb_false_r. f_equal. lia.
Qed.

Lemma crc_byte_divide c b : 0 <= c < 65536 -> is_byte b -> crc_byte c b = fold_left divide (byte_bits b) c.
Proof.
  intros Hc Hb. unfold is_byte in Hb.
  assert (E : fold_left divide (byte_bits b) c =
              Z.lxor (fold_left divide (repeat false 8) c) (fold_left divide (byte_bits b) 0)).
  { rewrite <- (xorl_zeros_l (byte_bits b)) at 1. rewrite <- (Z.lxor_0_r c) at 1. apply fold_linear. reflexivity. }
  rewrite E. clear E.
  assert (E : fold_left divide (repeat false 8) c =
              Z.lxor (fold_left divide (byte_bits (c / 256)) 0) (256 * (c mod 256))).
  { rewrite (split_lxor c Hc) at 1. change (repeat false 8) with (xorl (repeat false 8) (repeat false 8)) at 1.
    rewrite fold_linear by reflexivity. rewrite zeros_hi, zeros_lo by lia. reflexivity. }
  rewrite E. clear E. unfold crc_byte.
  assert (Ei : Z.land (Z.lxor (Z.shiftr c 8) b) 255 = Z.lxor (c / 256) b).
  { rewrite Z.shiftr_div_pow2 by lia. change (2 ^ 8) with 256. change 255 with (Z.ones 8). rewrite Z.land_ones by lia.
    apply Z.mod_small. apply lxor_small; lia. }
  rewrite Ei. assert (Hi : 0 <= Z.lxor (c / 256) b < 256) by (apply (lxor_small _ _ 8); lia).
  rewrite tab_spec by assumption. rewrite byte_bits_lxor.
  change 0 with (Z.lxor 0 0) at 1. rewrite fold_linear by reflexivity. change (Z.lxor 0 0) with 0.
  set (x := fold_left divide (byte_bits (c / 256)) 0). set (y := fold_left divide (byte_bits b) 0).
  assert (Hx : 0 <= x < 65536) by (apply fold_range; lia). assert (Hy : 0 <= y < 65536) by (apply fold_range; lia).
  unfold u16, uwrap. rewrite <- Z.land_ones by lia.
  assert (Es : Z.land (Z.shiftl c 8) (Z.ones 16) = 256 * (c mod 256)).
  { rewrite Z.land_ones, Z.shiftl_mul_pow2 by lia. change (2 ^ 8) with 256. change (2 ^ 16) with 65536. lia. }
  assert (El : Z.land (Z.lxor x y) (Z.ones 16) = Z.lxor x y).
  { rewrite Z.land_ones by lia. apply Z.mod_small. apply lxor_small; lia. }
  assert (Ed : forall p q, Z.land (Z.lxor p q) (Z.ones 16) = Z.lxor (Z.land p (Z.ones 16)) (Z.land q (Z.ones 16))).
  { intros p q. apply Z.bits_inj'. intros i Hi'. rewrite Z.land_spec, !Z.lxor_spec, !Z.land_spec.
    destruct (Z.testbit (Z.ones 16) i); rewrite ?Bool.andb_true_r, ?Bool.andb_false_r; reflexivity. }
  rewrite Ed, Es, El. rewrite <- !Z.lxor_assoc. rewrite (Z.lxor_comm x). reflexivity.
Qed.

Lemma crc_range l : forall c, 0 <= c < 65536 -> 0 <= crc16_ccitt l c < 65536.
Proof.
  induction l as [|b l IH]; intros c H; cbn [crc16_ccitt fold_left]; [assumption|].
  apply IH. unfold crc_byte, u16. apply (uwrap_range 16). lia.
Qed.
Lemma crc_divide l : forall c, 0 <= c < 65536 -> Forall is_byte l -> crc16_ccitt l c = fold_left divide (bits l) c.
Proof.
  induction l as [|b l IH]; intros c Hc Hl; [reflexivity|]. inversion Hl; subst.
  unfold crc16_ccitt, bits. cbn [fold_left flat_map]. rewrite fold_left_app, <- crc_byte_divide by assumption.
  apply IH; [|assumption]. unfold crc_byte, u16. apply (uwrap_range 16). lia.
Qed.
Lemma crc_app a b c : crc16_ccitt (a ++ b) c = crc16_ccitt b (crc16_ccitt a c).
Proof. apply fold_left_app. Qed.

Lemma crc_remainder l : Forall is_byte l -> crc16_ccitt l 0 = remainder l.
Proof. intros H. apply crc_divide; [lia|assumption]. Qed.

(** *** bursts *)

Lemma divide_zero : divide 0 false = 0. Proof. reflexivity. Qed.
Lemma zeros_zero n : fold_left divide (repeat false n) 0 = 0.
Proof. induction n as [|n IH]; cbn [repeat fold_left]; [reflexivity|]. rewrite divide_zero. exact IH. Qed.
Lemma divide_nonzero r : 0 < r < 65536 -> divide r false <> 0.
Proof.
  intros H. unfold divide. rewrite Bool.xorb_false_r. destruct (Z.testbit r 15) eqn:E.
  - intros C. assert (T : Z.testbit (Z.lxor ((2 * r) mod 65536) 4129) 0 = false) by (rewrite C; reflexivity).
    rewrite Z.lxor_spec in T.
    assert (Ev : Z.odd ((2 * r) mod 65536) = false).
    { replace ((2 * r) mod 65536) with (2 * (r mod 32768)) by lia. rewrite Z.odd_mul. reflexivity. }
    rewrite Z.bit0_odd, Ev in T. discriminate T.
  - intros C. assert (r < 32768); [|lia].
    destruct (Z.ltb_spec r 32768); [assumption|]. exfalso.
    assert (Z.testbit r 15 = true); [|congruence].
    apply Z.testbit_true; [lia|]. change (2 ^ 15) with 32768. assert (r / 32768 = 1) by lia. rewrite H1. reflexivity.
Qed.
Lemma zeros_nonzero n : forall r, 0 < r < 65536 -> fold_left divide (repeat false n) r <> 0.
Proof.
  induction n as [|n IH]; intros r H; cbn [repeat fold_left]; [lia|]. apply IH.
  pose proof (divide_nonzero r H). pose proof (divide_range r false). lia.
Qed.

Fixpoint all_lists (n : nat) : list (list bool) :=
  match n with O => [[]] | S k => map (cons false) (all_lists k) ++ map (cons true) (all_lists k) end.
Lemma all_lists_in n : forall l, length l = n -> In l (all_lists n).
Proof.
  induction n as [|n IH]; intros [|b l] H; cbn [length] in H; try lia; cbn [all_lists]; [left; reflexivity|].
  apply in_app_iff. destruct b; [right|left]; apply in_map, IH; lia.
Qed.

Lemma window_check : forallb (fun w => negb (existsb (fun b => b) w) || negb (fold_left divide w 0 =? 0)) (all_lists 16) = true.
Proof. vm_compute. reflexivity. Qed.
Lemma window_nonzero w : length w = 16%nat -> In true w -> fold_left divide w 0 <> 0.
Proof.
  intros H Hw. pose proof window_check as C. rewrite forallb_forall in C. specialize (C w (all_lists_in 16 w H)).
  assert (E : existsb (fun b => b) w = true) by (apply existsb_exists; exists true; auto).
  rewrite E in C. cbn in C. apply Bool.negb_true_iff, Z.eqb_neq in C. exact C.
Qed.

Lemma burst_nonzero n w m : length w = 16%nat -> In true w ->
  fold_left divide (repeat false n ++ w ++ repeat false m) 0 <> 0.
Proof.
  intros H Hw. rewrite !fold_left_app, zeros_zero. apply zeros_nonzero.
  pose proof (window_nonzero w H Hw). pose proof (fold_range w 0). lia.
Qed.
