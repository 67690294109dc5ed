From Verif Require Import Base IntSerModel GPSTimeModel PrintModel PrintSpec.
From Coq Require Import Reals Lra.
From Flocq Require Import Core IEEE754.BinarySingleNaN.
Local Open Scope Z_scope.
Ltac Zify.zify_post_hook ::= Z.to_euclidean_division_equations.

(** ** Digits *)
Lemma digits_f_len k fuel z : (1 <= k)%nat -> 0 <= z < 10 ^ Z.of_nat k -> (length (digits_f fuel z) <= k)%nat.
Proof.
  revert k z. induction fuel as [|fuel IH]; intros k z K H; cbn [digits_f].
  - cbn. lia.
  - destruct (z <? 10) eqn:E; [cbn; lia|]. apply Z.ltb_ge in E. rewrite app_length. cbn [length].
    destruct k as [|[|k]]; [lia|cbn in H; lia|]. specialize (IH (S k) (z / 10)).
    assert (P : 10 ^ Z.of_nat (S (S k)) = 10 * 10 ^ Z.of_nat (S k)) by (rewrite !Nat2Z.inj_succ, !Z.pow_succ_r by lia; ring).
    rewrite P in H. assert (0 <= z / 10 < 10 ^ Z.of_nat (S k)) by lia. assert (1 <= S k)%nat by lia. specialize (IH H1 H0). lia.
Qed.
Lemma digits_len k z : (1 <= k)%nat -> 0 <= z < 10 ^ Z.of_nat k -> (length (digits z) <= k)%nat.
Proof. apply digits_f_len. Qed.

Lemma log2_div10 z fuel : 10 <= z -> Z.log2 z <= Z.of_nat (S fuel) -> Z.log2 (z / 10) <= Z.of_nat fuel.
Proof.
  intros H L. assert (A : Z.log2 (z / 10) <= Z.log2 (z / 2)) by (apply Z.log2_le_mono; lia).
  replace (z / 2) with (Z.shiftr z 1) in A by (rewrite Z.shiftr_div_pow2 by lia; reflexivity). rewrite Z.log2_shiftr in A by lia. lia.
Qed.
Lemma log2_small z : 0 <= z -> Z.log2 z <= 0 -> z <= 1.
Proof. intros H L. destruct (Z.eq_dec z 0); [lia|]. pose proof (Z.log2_spec z). change (2 ^ Z.succ 0) with 2 in *. assert (Z.log2 z = 0) by (pose proof (Z.log2_nonneg z); lia). rewrite H1 in H0. change (2 ^ Z.succ 0) with 2 in H0. lia. Qed.

Lemma dec_val_app l c : dec_val (l ++ [c]) = 10 * dec_val l + (c - 48).
Proof. unfold dec_val. rewrite fold_left_app. reflexivity. Qed.

Lemma digits_f_val fuel z : 0 <= z -> Z.log2 z <= Z.of_nat fuel -> dec_val (digits_f fuel z) = z /\ all_digits (digits_f fuel z) /\ digits_f fuel z <> [].
Proof.
  revert z. induction fuel as [|fuel IH]; intros z H L; cbn [digits_f].
  - pose proof (log2_small z H L). split; [unfold dec_val; cbn; lia|]. split; [constructor; [lia|constructor]|discriminate].
  - destruct (z <? 10) eqn:E.
    + apply Z.ltb_lt in E. split; [unfold dec_val; cbn; lia|]. split; [constructor; [lia|constructor]|discriminate].
    + apply Z.ltb_ge in E. destruct (IH (z / 10)) as (A & B & C); [lia|apply log2_div10; assumption|].
      split; [rewrite dec_val_app, A; lia|]. split; [apply Forall_app; split; [exact B|constructor; [lia|constructor]]|].
      intros D. apply app_eq_nil in D. destruct D. contradiction.
Qed.
Lemma digits_val z : 0 <= z -> dec_val (digits z) = z /\ all_digits (digits z) /\ digits z <> [].
Proof. intros H. apply digits_f_val; [exact H|]. pose proof (Z.log2_nonneg z). lia. Qed.

Lemma dec_val_lt l : all_digits l -> 0 <= dec_val l < 10 ^ Z.of_nat (length l).
Proof.
  induction l as [|c l IH] using rev_ind; intros H; [cbn; lia|]. apply Forall_app in H as [H1 H2]. inversion H2; subst. specialize (IH H1).
  rewrite dec_val_app, app_length. cbn [length]. rewrite Nat.add_1_r, Nat2Z.inj_succ, Z.pow_succ_r by lia. lia.
Qed.
Lemma digits_long k z : 10 ^ Z.of_nat k <= z -> (k < length (digits z))%nat.
Proof.
  intros H. assert (0 < 10 ^ Z.of_nat k) by (apply Z.pow_pos_nonneg; lia). destruct (digits_val z) as (A & B & _); [lia|].
  pose proof (dec_val_lt _ B) as L. rewrite A in L. assert (P : 10 ^ Z.of_nat k < 10 ^ Z.of_nat (length (digits z))) by lia.
  apply Z.pow_lt_mono_r_iff in P; lia.
Qed.

(** ** Scanning *)
Definition no_digit_head (l : list Z) : Prop := match l with c :: _ => is_digit c = false | [] => True end.
Lemma digit_is c : 48 <= c <= 57 -> is_digit c = true.
Proof. intros H. unfold is_digit. apply andb_true_intro. lia. Qed.
Lemma take_all acc l r : all_digits l -> no_digit_head r -> take_digits acc (l ++ r) = (fold_left (fun a c => 10 * a + (c - 48)) l acc, r).
Proof.
  revert acc. induction l as [|c l IH]; intros acc H R.
  - cbn [app fold_left]. destruct r as [|c r]; [reflexivity|]. cbn in *. rewrite R. reflexivity.
  - inversion H; subst. cbn [app take_digits fold_left]. rewrite digit_is by assumption. apply IH; assumption.
Qed.

Lemma scan_d mn mx z r : mn <= z <= mx -> no_digit_head r -> scan_num mn mx (fmt_d z ++ r) = Number z r.
Proof.
  intros H R. unfold fmt_d. destruct (z <? 0) eqn:E; [apply Z.ltb_lt in E|apply Z.ltb_ge in E].
  - destruct (digits_val (- z)) as (A & B & C); [lia|]. unfold scan_num. cbn [app skip_space]. change (is_space 45) with false. cbv iota. unfold take_sign. change (45 =? 45) with true. cbv iota.
    destruct (digits (- z)) as [|c l] eqn:D; [congruence|]. rewrite <- D in *. assert (is_digit c = true) by (apply digit_is; rewrite D in B; inversion B; assumption).
    rewrite D at 1. cbn [app]. rewrite H0. rewrite take_all by assumption. fold (dec_val (digits (- z))). rewrite A, Z.opp_involutive.
    replace ((mn <=? z) && (z <=? mx)) with true by (symmetry; apply andb_true_intro; lia). reflexivity.
  - destruct (digits_val z) as (A & B & C); [lia|]. unfold scan_num.
    destruct (digits z) as [|c l] eqn:D; [congruence|]. assert (G : 48 <= c <= 57) by (inversion B; assumption).
    assert (S0 : skip_space ((c :: l) ++ r) = (c :: l) ++ r) by (cbn; unfold is_space; replace ((c =? 32) || (9 <=? c) && (c <=? 13)) with false by lia; reflexivity).
    rewrite S0. change ((c :: l) ++ r) with (c :: (l ++ r)).
    assert (S1 : take_sign (c :: l ++ r) = (false, c :: l ++ r)) by (unfold take_sign; replace (c =? 45) with false by lia; replace (c =? 43) with false by lia; reflexivity).
    rewrite S1. rewrite (digit_is c G). change (c :: l ++ r) with ((c :: l) ++ r). rewrite take_all by assumption. fold (dec_val (c :: l)). rewrite A.
    replace ((mn <=? z) && (z <=? mx)) with true by (symmetry; apply andb_true_intro; lia). reflexivity.
Qed.
Lemma fmt_ud z : 0 <= z -> fmt_u z = fmt_d z.
Proof. intros H. unfold fmt_u, fmt_d. replace (z <? 0) with false by lia. reflexivity. Qed.

Lemma scan_misfit mn mx z : 0 <= z -> mx < z -> scan_num mn mx (digits z) = Misfit.
Proof.
  intros H M. pose proof (scan_d z z z [] ltac:(lia) I) as S0. rewrite app_nil_r, <- fmt_ud in S0 by exact H. unfold fmt_u in S0.
  unfold scan_num in *. destruct (take_sign (skip_space (digits z))) as [neg l].
  destruct l as [|c l]; [discriminate|]. destruct (is_digit c); [|discriminate]. destruct (take_digits 0 (c :: l)) as [v k].
  set (v' := if neg then - v else v) in *. destruct ((z <=? v') && (v' <=? z)) eqn:E; [|discriminate]. assert (v' = z) by congruence. rewrite H0.
  replace ((mn <=? z) && (z <=? mx)) with false by lia. reflexivity.
Qed.

(** ** Integers *)
Definition of_type (t : ity) (z : Z) : Prop := ity_min t <= z <= ity_max t.
Lemma fmt_d_len k z : (1 <= k)%nat -> - 10 ^ Z.of_nat k < z < 10 ^ Z.of_nat k -> (length (fmt_d z) <= S k)%nat /\ (0 <= z -> (length (fmt_d z) <= k)%nat).
Proof.
  intros K H. unfold fmt_d. destruct (z <? 0) eqn:E; [apply Z.ltb_lt in E|apply Z.ltb_ge in E].
  - cbn [length]. pose proof (digits_len k (- z) K). lia.
  - pose proof (digits_len k z K). lia.
Qed.

Theorem int_fits t z : of_type t z -> exists s, print_int t z = Some s.
Proof.
  intros H. unfold print_int, into. unfold of_type in H.
  assert (L : Z.of_nat (length (match t with UInt | UChar => fmt_u z | _ => fmt_d z end)) + 1 <=? int_buf t = true).
  { apply Z.leb_le. destruct t; cbn [int_buf ity_min ity_max] in *.
    - pose proof (digits_len 10 z ltac:(lia)) as D. change (10 ^ Z.of_nat 10) with 10000000000 in D. unfold fmt_u. lia.
    - destruct (fmt_d_len 10 z ltac:(lia)) as [D _]; [change (10 ^ Z.of_nat 10) with 10000000000; lia|]. lia.
    - pose proof (digits_len 3 z ltac:(lia)) as D. change (10 ^ Z.of_nat 3) with 1000 in D. unfold fmt_u. lia.
    - destruct (fmt_d_len 3 z ltac:(lia)) as [D _]; [change (10 ^ Z.of_nat 3) with 1000; lia|]. lia. }
  rewrite L. eauto.
Qed.
Lemma conv_id t z : of_type t z -> ity_conv t z = z.
Proof.
  unfold of_type, ity_conv, u32, u8, s32, s8, uwrap, swrap. destruct t; cbn [ity_min ity_max]; intros H.
  all: try (rewrite Z.mod_small by lia; reflexivity).
  all: cbv zeta; try (destruct (_ <? _) eqn:E); lia.
Qed.
Theorem int_reads_back t z s : of_type t z -> z <= 2147483647 -> print_int t z = Some s -> read_int t s = Stored z.
Proof.
  intros H M P. unfold print_int, into in P. destruct (_ <=? _); [|discriminate].
  assert (E : (match t with UInt | UChar => fmt_u z | _ => fmt_d z end) = fmt_d z).
  { unfold of_type in H. destruct t; cbn [ity_min ity_max] in H; try reflexivity; apply fmt_ud; lia. }
  rewrite E in P. injection P as <-. unfold read_int. rewrite <- (app_nil_r (fmt_d z)), scan_d; [|unfold of_type in H; destruct t; cbn in H; lia|exact I].
  rewrite conv_id by exact H. reflexivity.
Qed.
Theorem large_unsigned z s : 2147483648 <= z -> print_int UInt z = Some s -> read_int UInt s = Undefined.
Proof.
  intros H P. unfold print_int, into in P. destruct (_ <=? _); [|discriminate]. injection P as <-. unfold read_int, fmt_u. rewrite scan_misfit by lia. reflexivity.
Qed.
Theorem read_in_type t l z : read_int t l = Stored z -> of_type t z.
Proof.
  unfold read_int. destruct (scan_num _ _ l) as [| |v r] eqn:E; try discriminate. intros [= <-].
  assert (V : - 2147483648 <= v <= 2147483647).
  { unfold scan_num in E. destruct (take_sign (skip_space l)) as [neg k].
    destruct k as [|c k]; [discriminate|]. destruct (is_digit c); [|discriminate]. destruct (take_digits 0 (c :: k)) as [w k'].
    destruct (_ && _) eqn:B; [|discriminate]. injection E as <- _. apply andb_prop in B. lia. }
  unfold of_type, ity_conv, u32, u8, s32, s8, uwrap, swrap. destruct t; cbn [ity_min ity_max]; cbv zeta; try (destruct (_ <? _) eqn:B); lia.
Qed.
(** a number is stored whatever the limits of the field *)
Theorem limits_ignored t z : of_type t z -> 0 <= z <= 2147483647 -> read_int t (digits z) = Stored z.
Proof.
  intros H M. unfold read_int. change (digits z) with (fmt_u z). rewrite fmt_ud by lia. rewrite <- (app_nil_r (fmt_d z)), scan_d; [|lia|exact I]. rewrite conv_id by exact H. reflexivity.
Qed.

Theorem bool_text b : exists s, print_bool b = Some s /\ read_bool s = Stored b.
Proof. destruct b; eexists; split; reflexivity. Qed.
