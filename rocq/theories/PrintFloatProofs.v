From Verif Require Import Base IntSerModel GPSTimeModel PrintModel PrintSpec PrintProofs.
From Coq Require Import Reals Lra.
From Flocq Require Import Core IEEE754.BinarySingleNaN.
Local Open Scope Z_scope.
Ltac Zify.zify_post_hook ::= Z.to_euclidean_division_equations.

(** ** Rounding to millionths *)
Lemma rhe_cases n d : 0 < d -> exists q r, n = q * d + r /\ 0 <= r < d /\ (rhe n d = q /\ 2 * r <= d \/ rhe n d = q + 1 /\ d <= 2 * r).
Proof.
  intros D. exists (n / d), (n mod d). pose proof (Z.div_mod n d ltac:(lia)). pose proof (Z.mod_pos_bound n d D). split; [lia|]. split; [lia|].
  unfold rhe. set (q := n / d) in *. set (r := n mod d) in *. clearbody q r. destruct (2 * r <? d) eqn:A; [left; lia|]. destruct (d <? 2 * r) eqn:B; [right; lia|].
  destruct (Z.even q); [left|right]; lia.
Qed.
Lemma rhe_near n d : 0 < d -> 2 * Z.abs (rhe n d * d - n) <= d.
Proof. intros D. destruct (rhe_cases n d D) as (q & r & E & R & [[-> H]|[-> H]]); nia. Qed.

Local Open Scope R_scope.
Lemma millionths_near m e : Rabs (IZR (millionths m e) - IZR (Z.pos m) * bpow radix2 e * 1000000) <= 1 / 2.
Proof.
  unfold millionths. destruct (0 <=? e)%Z eqn:E.
  - apply Z.leb_le in E. rewrite !mult_IZR. rewrite (IZR_Zpower radix2) by exact E || (change (2 ^ e)%Z with (radix_val radix2 ^ e)%Z; rewrite IZR_Zpower by exact E).
    replace (IZR (Z.pos m) * 1000000 * bpow radix2 e - IZR (Z.pos m) * bpow radix2 e * 1000000) with 0 by ring. rewrite Rabs_R0. lra.
  - apply Z.leb_gt in E. set (d := (2 ^ (- e))%Z). assert (D : (0 < d)%Z) by (apply Z.pow_pos_nonneg; lia).
    assert (B : bpow radix2 e = / IZR d).
    { unfold d. change 2%Z with (radix_val radix2). rewrite IZR_Zpower by lia. rewrite <- bpow_opp. f_equal. lia. }
    pose proof (rhe_near (Z.pos m * 1000000) d D) as N. apply IZR_le in N. rewrite mult_IZR, abs_IZR, minus_IZR, !mult_IZR in N.
    assert (DP : 0 < IZR d) by (apply IZR_lt; exact D). rewrite B.
    replace (IZR (rhe (Z.pos m * 1000000) d) - IZR (Z.pos m) * / IZR d * 1000000) with ((IZR (rhe (Z.pos m * 1000000) d) * IZR d - IZR (Z.pos m) * 1000000) * / IZR d) by (field; lra).
    rewrite Rabs_mult, (Rabs_pos_eq (/ IZR d)) by (apply Rlt_le, Rinv_0_lt_compat; exact DP).
    apply Rmult_le_reg_r with (IZR d); [exact DP|]. rewrite Rmult_assoc, Rinv_l by lra. lra.
Qed.
Local Open Scope Z_scope.
Lemma millionths_pos m e : 0 <= millionths m e.
Proof.
  unfold millionths. destruct (0 <=? e) eqn:E; [apply Z.leb_le in E; assert (0 < 2 ^ e) by (apply Z.pow_pos_nonneg; lia); nia|].
  apply Z.leb_gt in E. assert (D : 0 < 2 ^ (- e)) by (apply Z.pow_pos_nonneg; lia). destruct (rhe_cases (Z.pos m * 1000000) _ D) as (q & r & A & R & C). nia.
Qed.

Lemma padded_val n z : 0 <= z -> dec_val (padded n z) = z mod 10 ^ Z.of_nat n /\ all_digits (padded n z) /\ length (padded n z) = n.
Proof.
  revert z. induction n as [|n IH]; intros z H; cbn [padded].
  - rewrite Z.mod_1_r. repeat split. constructor.
  - destruct (IH (z / 10)) as (A & B & C); [lia|]. rewrite dec_val_app, A, app_length, C. split; [|split; [apply Forall_app; split; [exact B|constructor; [lia|constructor]]|cbn; lia]].
    rewrite Nat2Z.inj_succ, Z.pow_succ_r by lia. assert (0 < 10 ^ Z.of_nat n) by (apply Z.pow_pos_nonneg; lia). set (p := 10 ^ Z.of_nat n) in *. clearbody p.
    rewrite Z.rem_mul_r by lia. lia.
Qed.

Lemma fixed_shows s u : 0 <= u -> shows (fixed s u) ((if s then -1 else 1) * (IZR u / 1000000))%R.
Proof.
  intros H. destruct (digits_val (u / 1000000)) as (A & B & C); [lia|]. destruct (padded_val 6 (u mod 1000000)) as (D & E & F); [lia|].
  exists s, (digits (u / 1000000)), (padded 6 (u mod 1000000)). split; [reflexivity|]. split; [exact B|]. split; [exact E|]. split; [exact C|]. split; [exact F|].
  rewrite A, D. change (10 ^ Z.of_nat 6) with 1000000. rewrite Z.mod_mod by lia. f_equal.
  rewrite (Z.div_mod u 1000000) at 1 by lia. rewrite plus_IZR, mult_IZR. lra.
Qed.

Section F.
Context {prec emax : Z}.
Notation fl := (binary_float prec emax).
Implicit Types x : fl.

(** the text of a finite number and its size in millionths *)
Definition sgn (x : fl) : bool := match x with B754_zero s => s | B754_finite s _ _ _ => s | _ => false end.
Definition mil (x : fl) : Z := match x with B754_finite _ m e _ => millionths m e | _ => 0 end.
Lemma fmt_f_fixed x : is_finite x = true -> fmt_f x = fixed (sgn x) (mil x).
Proof. destruct x; try discriminate; reflexivity. Qed.
Lemma mil_near x : is_finite x = true -> (0 <= mil x) /\ (Rabs ((if sgn x then -1 else 1) * (IZR (mil x) / 1000000) - B2R x) <= 1 / 2000000)%R.
Proof.
  destruct x as [s| |  |s m e H]; intros F; try discriminate.
  - cbn [mil sgn B2R]. split; [lia|]. replace ((if s then -1 else 1) * (0 / 1000000) - 0)%R with 0%R by (destruct s; lra). rewrite Rabs_R0. lra.
  - cbn [mil sgn B2R]. split; [apply millionths_pos|]. pose proof (millionths_near m e) as N. unfold F2R. cbn [Fnum Fexp].
    set (u := IZR (millionths m e)) in *. apply Rabs_le_inv in N.
    destruct s; unfold cond_Zopp; [rewrite opp_IZR|]; apply Rabs_le; set (w := (IZR (Z.pos m) * bpow radix2 e)%R) in *.
    + replace (- IZR (Z.pos m) * bpow radix2 e)%R with (- w)%R by (unfold w; ring). lra.
    + fold w. lra.
Qed.

Theorem float_shown x : is_finite x = true -> exists r, shows (fmt_f x) r /\ (Rabs (r - B2R x) <= 1 / 2000000)%R.
Proof.
  intros F. destruct (mil_near x F) as [P N]. rewrite (fmt_f_fixed x F). eexists. split; [apply fixed_shows; exact P|exact N].
Qed.

Lemma fixed_len k (s : bool) u : (1 <= k)%nat -> 0 <= u < 1000000 * 10 ^ Z.of_nat k -> (length (fixed s u) <= (if s then 1 else 0) + k + 7)%nat.
Proof.
  intros K H. unfold fixed. rewrite !app_length. cbn [length]. destruct (padded_val 6 (u mod 1000000)) as (_ & _ & ->); [lia|].
  pose proof (digits_len k (u / 1000000) K). assert (0 <= u / 1000000 < 10 ^ Z.of_nat k) by lia. specialize (H0 H1). destruct s; cbn [length]; lia.
Qed.
Lemma fixed_long k (s : bool) u : 1000000 * 10 ^ Z.of_nat k <= u -> ((if s then 1 else 0) + k + 8 <= length (fixed s u))%nat.
Proof.
  intros H. assert (0 < 10 ^ Z.of_nat k) by (apply Z.pow_pos_nonneg; lia). unfold fixed. rewrite !app_length. cbn [length]. destruct (padded_val 6 (u mod 1000000)) as (_ & _ & ->); [lia|].
  assert (D : (k < length (digits (u / 1000000)))%nat) by (apply digits_long; lia). destruct s; cbn [length]; lia.
Qed.

Lemma sgn_neg x : is_finite x = true -> (B2R x < 0)%R -> sgn x = true.
Proof.
  destruct x as [s| | |s m e H]; intros F N; try discriminate; cbn in N |- *; [lra|]. destruct s; [reflexivity|]. exfalso.
  assert (0 < F2R (Float radix2 (Z.pos m) e))%R by (apply F2R_gt_0; reflexivity). unfold cond_Zopp in N. lra.
Qed.
Lemma sgn_pos x : is_finite x = true -> (0 < B2R x)%R -> sgn x = false.
Proof.
  destruct x as [s| | |s m e H]; intros F N; try discriminate; cbn in N |- *; [lra|]. destruct s; [|reflexivity]. exfalso.
  assert (F2R (Float radix2 (Z.neg m) e) < 0)%R by (apply F2R_lt_0; reflexivity). unfold cond_Zopp in N. change (- Z.pos m) with (Z.neg m) in N. lra.
Qed.

(** between these bounds the whole part has at most [k] digits *)
Lemma mil_bound x k : is_finite x = true -> (- (IZR k - 1) < B2R x < IZR k - 1)%R -> mil x < 1000000 * k.
Proof.
  intros F B. destruct (mil_near x F) as [P N]. apply Rabs_le_inv in N. apply lt_IZR. rewrite mult_IZR. destruct (sgn x); lra.
Qed.
Lemma mil_bound_pos x k : is_finite x = true -> 0 < k -> (B2R x < IZR k - 1)%R -> sgn x = false -> mil x < 1000000 * k.
Proof.
  intros F K B S0. destruct (mil_near x F) as [P N]. apply Rabs_le_inv in N. rewrite S0 in N. apply lt_IZR. rewrite mult_IZR. lra.
Qed.

Lemma fmt_len x k : (2 <= k)%nat -> (- (IZR (10 ^ Z.of_nat (k - 1)) - 1) < B2R x < IZR (10 ^ Z.of_nat k) - 1)%R -> (length (fmt_f x) <= k + 7)%nat.
Proof.
  intros K B. destruct (is_finite x) eqn:F; [|destruct x as [ |s| |]; try discriminate; [destruct s|]; cbn; lia].
  rewrite (fmt_f_fixed x F). destruct (mil_near x F) as [P _].
  assert (PW : 10 ^ Z.of_nat k = 10 * 10 ^ Z.of_nat (k - 1)) by (replace (Z.of_nat k) with (Z.succ (Z.of_nat (k - 1))) by lia; apply Z.pow_succ_r; lia).
  assert (0 < 10 ^ Z.of_nat (k - 1)) by (apply Z.pow_pos_nonneg; lia).
  destruct (sgn x) eqn:S0.
  - assert (U : mil x < 1000000 * 10 ^ Z.of_nat (k - 1)).
    { destruct (Rlt_dec 0 (B2R x)) as [X|X]; [rewrite (sgn_pos x F X) in S0; discriminate|]. apply mil_bound; [exact F|]. apply (IZR_le 1) in H || idtac.
      assert (G : (1 <= IZR (10 ^ Z.of_nat (k - 1)))%R) by (apply IZR_le; lia).
      split; [lra|]. destruct (Rle_lt_or_eq_dec _ _ (Rnot_lt_le _ _ X)) as [Y|Y]; [lra|]. rewrite Y.
      assert (G2 : (10 <= 10 ^ Z.of_nat (k - 1))) by (apply (Z.pow_le_mono_r 10 1); lia). apply IZR_le in G2. lra. }
    assert (K1 : (1 <= k - 1)%nat) by lia. pose proof (fixed_len (k - 1) true (mil x) K1 (conj P U)) as Q. cbv iota in Q. lia.
  - assert (K0 : 0 < 10 ^ Z.of_nat k) by (rewrite PW; lia). pose proof (mil_bound_pos x (10 ^ Z.of_nat k) F K0 (proj2 B) S0) as U. assert (K1 : (1 <= k)%nat) by lia. pose proof (fixed_len k false (mil x) K1 (conj P U)) as Q. cbv iota in Q. lia.
Qed.

Theorem float_fits x : is_finite x = false \/ (-99999 < B2R x < 999999)%R -> exists s, print_float x = Some s.
Proof.
  intros H. assert (L : (length (fmt_f x) <= 13)%nat).
  { destruct H as [H|H]; [destruct x as [ |s| |]; try discriminate; [destruct s|]; cbn; lia|].
    apply (fmt_len x 6); [lia|]. change (10 ^ Z.of_nat (6 - 1)) with 100000. change (10 ^ Z.of_nat 6) with 1000000. lra. }
  unfold print_float, into. replace (Z.of_nat (length (fmt_f x)) + 1 <=? 14) with true by lia. eauto.
Qed.

Lemma mil_large x k : is_finite x = true -> 0 < k -> (IZR k <= Rabs (B2R x))%R -> 1000000 * k <= mil x.
Proof.
  intros F K H. destruct (mil_near x F) as [P N]. assert (1000000 * k < mil x + 1); [|lia]. apply lt_IZR. rewrite plus_IZR, mult_IZR. apply Rabs_le_inv in N.
  unfold Rabs in H. apply IZR_lt in K. destruct (Rcase_abs (B2R x)) as [A|A].
  - rewrite (sgn_neg x F A) in N. lra.
  - rewrite (sgn_pos x F ltac:(lra)) in N. lra.
Qed.
Theorem float_overflows x : is_finite x = true -> (1000000 <= B2R x \/ B2R x <= -100000)%R -> print_float x = None.
Proof.
  intros F H. assert (L : (14 <= length (fmt_f x))%nat).
  { rewrite (fmt_f_fixed x F). destruct H as [H|H].
    - pose proof (mil_large x 1000000 F ltac:(lia) ltac:(rewrite Rabs_pos_eq; lra)) as M. pose proof (fixed_long 6 (sgn x) (mil x) M). destruct (sgn x); cbv iota in *; lia.
    - rewrite (sgn_neg x F) by lra. pose proof (mil_large x 100000 F ltac:(lia) ltac:(rewrite Rabs_left; lra)) as M. pose proof (fixed_long 5 true (mil x) M) as Q; cbv iota in Q. lia. }
  unfold print_float, into. replace (Z.of_nat (length (fmt_f x)) + 1 <=? 14) with false by lia. reflexivity.
Qed.

(** ** Vectors *)
Lemma concat_len (l : list fl) k : (forall x, In x l -> (length (fmt_f x) <= k)%nat) -> (length (concat (map (fun x => fmt_f x ++ [44%Z]) l)) <= (k + 1) * length l)%nat.
Proof.
  induction l as [|x l IH]; intros H; [cbn; lia|]. cbn [map concat length]. rewrite !app_length. cbn [length]. pose proof (H x (or_introl eq_refl)). specialize (IH (fun y I => H y (or_intror I))). lia.
Qed.
Lemma concat_long (l : list fl) k : (forall x, In x l -> (k <= length (fmt_f x))%nat) -> ((k + 1) * length l <= length (concat (map (fun x => fmt_f x ++ [44%Z]) l)))%nat.
Proof.
  induction l as [|x l IH]; intros H; [cbn; lia|]. cbn [map concat length]. rewrite !app_length. cbn [length]. pose proof (H x (or_introl eq_refl)). specialize (IH (fun y I => H y (or_intror I))). lia.
Qed.
Theorem vector_fits (l : list fl) : l <> [] -> (forall x, In x l -> is_finite x = false \/ (-9999 < B2R x < 99999)%R) -> exists s, print_vector l = Some s.
Proof.
  intros N H. assert (L : (length (concat (map (fun x => fmt_f x ++ [44%Z]) l)) <= 13 * length l)%nat).
  { apply (concat_len l 12). intros x I. destruct (H x I) as [F|B]; [destruct x as [ |s| |]; try discriminate; [destruct s|]; cbn; lia|].
    apply (fmt_len x 5); [lia|]. change (10 ^ Z.of_nat (5 - 1)) with 10000. change (10 ^ Z.of_nat 5) with 100000. lra. }
  unfold print_vector, into. destruct l as [|y l]; [congruence|]. cbv zeta. set (t := concat _) in *. cbn [length] in *.
  replace (Z.of_nat (length t) + 1 <=? _) with true by lia. eauto.
Qed.
Theorem vector_overflows (l : list fl) : l <> [] -> (forall x, In x l -> is_finite x = true /\ (100000 <= B2R x \/ B2R x <= -10000)%R) -> print_vector l = None.
Proof.
  intros N H. assert (L : (14 * length l <= length (concat (map (fun x => fmt_f x ++ [44%Z]) l)))%nat).
  { apply (concat_long l 13). intros x I. destruct (H x I) as [F [B|B]]; rewrite (fmt_f_fixed x F).
    - pose proof (mil_large x 100000 F ltac:(lia) ltac:(rewrite Rabs_pos_eq; lra)) as M. pose proof (fixed_long 5 (sgn x) (mil x) M). destruct (sgn x); cbv iota in *; lia.
    - rewrite (sgn_neg x F) by lra. pose proof (mil_large x 10000 F ltac:(lia) ltac:(rewrite Rabs_left; lra)) as M. pose proof (fixed_long 4 true (mil x) M) as Q; cbv iota in Q. lia. }
  unfold print_vector, into. cbv zeta. set (t := concat _) in *. clearbody t. replace (Z.of_nat (length t) + 1 <=? _) with false by lia. reflexivity.
Qed.
End F.

(** ** GPS time *)
Definition proper_gps (t : gtime) : Prop := 0 <= g_wn t < 65536 /\ 0 <= g_tow t < 604800000 /\ -1000000 <= g_ns t <= 1000000.
Lemma as_int_id z : 0 <= z < 2147483648 -> as_int z = z.
Proof. intros H. unfold as_int. replace (z <? 2147483648) with true by lia. reflexivity. Qed.
Theorem gps_fits t : proper_gps t -> exists s, print_gps t = Some s.
Proof.
  intros (W & T & N). unfold print_gps, into. rewrite as_int_id by lia. rewrite !app_length. cbn [length]. rewrite app_length. cbn [length].
  pose proof (digits_len 5 (g_wn t) ltac:(lia)) as D1. change (10 ^ Z.of_nat 5) with 100000 in D1.
  destruct (fmt_d_len 9 (g_tow t) ltac:(lia)) as [_ D2]; [change (10 ^ Z.of_nat 9) with 1000000000; lia|].
  destruct (fmt_d_len 7 (g_ns t) ltac:(lia)) as [D3 _]; [change (10 ^ Z.of_nat 7) with 10000000; lia|]. unfold fmt_u.
  match goal with |- exists s, (if ?b then _ else _) = _ => replace b with true by lia end. eauto.
Qed.
Theorem gps_reads_back t old s : 0 <= g_wn t < 65536 -> 0 <= g_tow t < 4294967296 -> - 2147483648 <= g_ns t < 2147483648 -> print_gps t = Some s ->
  read_gps old s = Stored (mk_gtime (g_wn t) (g_tow t) (g_ns t) (g_set old)).
Proof.
  intros W T N P. unfold print_gps, into in P. destruct (_ <=? 25); [|discriminate]. injection P as <-. rewrite fmt_ud by lia.
  assert (A : -2147483648 <= as_int (g_tow t) < 2147483648 /\ as_int (g_tow t) mod 4294967296 = g_tow t)
    by (unfold as_int; destruct (Z.ltb_spec (g_tow t) 2147483648); lia). destruct A as [A1 A2].
  unfold read_gps. rewrite scan_d; [|lia|reflexivity]. rewrite scan_d; [|lia|reflexivity]. rewrite <- (app_nil_r (fmt_d (g_ns t))). rewrite scan_d; [|lia|exact I].
  rewrite A2. reflexivity.
Qed.
Theorem gps_flag_kept old l t : read_gps old l = Stored t -> g_set t = g_set old.
Proof.
  unfold read_gps. intros H.
  destruct (scan_num 0 65535 l) as [| |w r]; try discriminate. destruct r as [|c r]; [discriminate|].
  destruct (Z.eq_dec c 44) as [->|NC]; [|exfalso; destruct c as [|p|p]; try discriminate; do 6 (destruct p as [p|p|]; try discriminate); congruence].
  destruct (scan_num _ _ r) as [| |w2 r2]; try discriminate. destruct r2 as [|c r2]; [discriminate|].
  destruct (Z.eq_dec c 44) as [->|NC]; [|exfalso; destruct c as [|p|p]; try discriminate; do 6 (destruct p as [p|p|]; try discriminate); congruence].
  destruct (scan_num _ _ r2) as [| |w3 r3]; try discriminate. injection H as <-. reflexivity.
Qed.

(** ** Vectors from text *)
Lemma tokens_one cur t r : ~ In 44 t -> tokens cur (t ++ 44 :: r) = (match rev t ++ cur with [] => [] | _ => [rev (rev t ++ cur)] end) ++ tokens [] r.
Proof.
  revert cur. induction t as [|c t IH]; intros cur H.
  - cbn [app rev]. cbn [tokens]. change (44 =? 44) with true. cbv iota. reflexivity.
  - cbn [app]. cbn [tokens]. assert (c <> 44) by (intros ->; apply H; left; reflexivity). replace (c =? 44) with false by lia.
    rewrite IH by (intros I; apply H; right; exact I). cbn [rev]. rewrite <- app_assoc. reflexivity.
Qed.
Lemma tokens_listed l : Forall token l -> tokens [] (listed l) = l.
Proof.
  induction l as [|t l IH]; intros H; [reflexivity|]. inversion H as [|? ? [N C] H']; subst. unfold listed. cbn [map concat]. rewrite <- app_assoc. cbn [app].
  rewrite tokens_one by exact C. rewrite app_nil_r, rev_involutive. fold (listed l). rewrite IH by exact H'.
  destruct (rev t) eqn:E; [|reflexivity]. exfalso. apply N. rewrite <- (rev_involutive t), E. reflexivity.
Qed.
Theorem vector_read {A} (conv : list Z -> A) n l : Forall token l -> (length l <= n)%nat ->
  read_vector conv n (listed l) = if (length l =? n)%nat then Stored (map conv l) else Rejected.
Proof.
  intros H L. unfold read_vector. rewrite tokens_listed by exact H. cbv zeta. replace (n <? length l)%nat with false by (symmetry; apply Nat.ltb_ge; exact L). reflexivity.
Qed.
Theorem vector_too_long {A} (conv : list Z -> A) n l : Forall token l -> (n < length l)%nat -> read_vector conv n (listed l) = Undefined.
Proof.
  intros H L. unfold read_vector. rewrite tokens_listed by exact H. cbv zeta. replace (n <? length l)%nat with true by (symmetry; apply Nat.ltb_lt; exact L). reflexivity.
Qed.

Lemma digits_token_free l : all_digits l -> ~ In 44 l.
Proof. intros H I. unfold all_digits in H. rewrite Forall_forall in H. specialize (H _ I). lia. Qed.
Lemma fmt_token {prec emax} (x : binary_float prec emax) : token (fmt_f x).
Proof.
  assert (FX : forall s u, 0 <= u -> token (fixed s u)).
  { intros s u H. destruct (digits_val (u / 1000000)) as (_ & B & C); [lia|]. destruct (padded_val 6 (u mod 1000000)) as (_ & E & F); [lia|]. split.
    - unfold fixed. intros K. destruct s; [discriminate|]. cbn [app] in K. apply app_eq_nil in K. destruct K; discriminate.
    - unfold fixed. intros I. apply in_app_or in I as [I|I]; [destruct s; cbn in I; lia|]. apply in_app_or in I as [I|I]; [exact (digits_token_free _ B I)|].
      destruct I as [I|I]; [lia|]. exact (digits_token_free _ E I). }
  destruct x as [s|s| |s m e H]; cbn [fmt_f].
  - apply FX. lia.
  - split; [destruct s; discriminate|]. intros I. destruct s; cbn in I; lia.
  - split; [discriminate|]. intros I. cbn in I; lia.
  - apply FX. apply millionths_pos.
Qed.
Theorem vector_reads_back {prec emax} {A} (conv : list Z -> A) (l : list (binary_float prec emax)) s :
  print_vector l = Some s -> read_vector conv (length l) s = Stored (map (fun x => conv (fmt_f x)) l).
Proof.
  intros P. unfold print_vector, into in P. destruct (_ <=? _); [|discriminate]. assert (E : s = listed (map fmt_f l)) by (injection P as <-; unfold listed; rewrite map_map; reflexivity).
  rewrite E, vector_read; [|apply Forall_map, Forall_forall; intros; apply fmt_token|rewrite map_length; lia]. rewrite map_length, Nat.eqb_refl, map_map. reflexivity.
Qed.
