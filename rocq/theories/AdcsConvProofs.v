(** Proofs about the fixed-point encodings of the link between the two computers. *)
From Verif Require Import Base AdcsModel.
From Coq Require Import QArith Qround Qabs Lqa.
Local Open Scope Q_scope.

Lemma Qtrunc_nonneg q : 0 <= q -> inject_Z (Qtrunc q) <= q /\ q < inject_Z (Qtrunc q) + 1.
Proof.
  intros H. assert (E : Qtrunc q = Qfloor q).
  { destruct q as [n d]. unfold Qtrunc, Qfloor, Qnum, Qden. unfold Qle in H; simpl in H.
    apply Z.quot_div_nonneg; lia. }
  rewrite E. split; [apply Qfloor_le|].
  pose proof (Qlt_floor q) as L. rewrite inject_Z_plus in L. exact L.
Qed.

Lemma Qtrunc_opp q : Qtrunc (- q) = (- Qtrunc q)%Z.
Proof. destruct q as [n d]. unfold Qtrunc; simpl. apply Z.quot_opp_l. lia. Qed.

Lemma inject_Z_lt0 t : 0 < inject_Z t + 1 -> (0 <= t)%Z.
Proof. intros H. assert (inject_Z (-1) < inject_Z t) by (change (inject_Z (-1)) with (-1); lra). rewrite <- Zlt_Qlt in H0. lia. Qed.

Lemma Qtrunc_nonneg_Z q : 0 <= q -> (0 <= Qtrunc q)%Z.
Proof. intros H. pose proof (Qtrunc_nonneg q H). apply inject_Z_lt0. lra. Qed.

Lemma Qtrunc_le_Z q n : 0 <= q -> q <= inject_Z n -> (Qtrunc q <= n)%Z.
Proof. intros H H2. pose proof (Qtrunc_nonneg q H). rewrite Zle_Qle. lra. Qed.

Lemma Qtrunc_ge_Z q n : 0 <= q -> inject_Z n <= q -> (n <= Qtrunc q)%Z.
Proof.
  intros H H2. pose proof (Qtrunc_nonneg q H). assert (L : inject_Z n < inject_Z (Qtrunc q) + 1) by lra.
  change 1 with (inject_Z 1) in L. rewrite <- inject_Z_plus in L. rewrite <- Zlt_Qlt in L. lia.
Qed.

Lemma Qtrunc_comp p q : p == q -> Qtrunc p = Qtrunc q.
Proof.
  intros H.
  assert (P : forall p q, p == q -> 0 <= p -> Qtrunc p = Qtrunc q).
  { clear. intros p q H Hp. assert (Hq : 0 <= q) by lra.
    pose proof (Qtrunc_nonneg p Hp) as [A B]. pose proof (Qtrunc_nonneg q Hq) as [C D].
    apply Z.le_antisymm.
    - apply Qtrunc_ge_Z; lra.
    - apply Qtrunc_ge_Z; lra. }
  destruct (Qlt_le_dec p 0) as [N|N].
  - pose proof (P (- p) (- q)) as X. rewrite !Qtrunc_opp in X. assert (- p == - q) by lra. assert (0 <= - p) by lra.
    specialize (X H0 H1). lia.
  - apply P; assumption.
Qed.

(** absolute value of the truncation *)
Lemma Qtrunc_abs_le q n : - inject_Z n <= q -> q <= inject_Z n -> (Z.abs (Qtrunc q) <= n)%Z.
Proof.
  intros H1 H2. destruct (Qlt_le_dec q 0) as [N|N].
  - assert (X : (Qtrunc (- q) <= n)%Z) by (apply Qtrunc_le_Z; lra).
    assert (Y : (0 <= Qtrunc (- q))%Z) by (apply Qtrunc_nonneg_Z; lra).
    rewrite Qtrunc_opp in X, Y. lia.
  - assert (X := Qtrunc_le_Z q n N H2). assert (Y := Qtrunc_nonneg_Z q N). lia.
Qed.

Lemma Qtrunc_small q : -1 < q -> q < 1 -> Qtrunc q = 0%Z.
Proof.
  intros H1 H2.
  assert (P : forall q, 0 <= q -> q < 1 -> Qtrunc q = 0%Z).
  { clear. intros q H H1. pose proof (Qtrunc_nonneg q H) as [A B]. pose proof (Qtrunc_nonneg_Z q H).
    assert (inject_Z (Qtrunc q) < inject_Z 1) by (change (inject_Z 1) with 1; lra). rewrite <- Zlt_Qlt in H2. lia. }
  destruct (Qlt_le_dec q 0) as [N|N].
  - assert (Qtrunc (- q) = 0%Z) by (apply P; lra). rewrite Qtrunc_opp in H. lia.
  - apply P; assumption.
Qed.

(** ** Encoding then decoding loses less than one step, downwards *)

Section Enc.
  Variables (N : Z) (mn mx : Q).
  Hypothesis HN : (0 < N)%Z.
  Hypothesis Hm : mn < mx.

  Definition enc_raw (f : Q) : Q := inject_Z N * (f - mn) / (mx - mn).

  Lemma HNq : 0 < inject_Z N.
  Proof. change 0 with (inject_Z 0). rewrite <- Zlt_Qlt. exact HN. Qed.

  Lemma enc_raw_eq f : enc_raw f * (mx - mn) == inject_Z N * (f - mn).
  Proof. unfold enc_raw. field. lra. Qed.

  Lemma enc_raw_range f : mn <= f <= mx -> 0 <= enc_raw f /\ enc_raw f <= inject_Z N.
  Proof.
    intros [H1 H2]. pose proof HNq as HN'. unfold enc_raw. split.
    - apply Qle_shift_div_l; [lra|]. ring_simplify. nra.
    - apply Qle_shift_div_r; [lra|]. nra.
  Qed.

  Lemma enc_dec f : mn <= f <= mx ->
    (0 <= Qtrunc (enc_raw f) <= N)%Z /\
    0 <= f - (mn + inject_Z (Qtrunc (enc_raw f)) * (mx - mn) / inject_Z N) /\
    f - (mn + inject_Z (Qtrunc (enc_raw f)) * (mx - mn) / inject_Z N) < (mx - mn) / inject_Z N.
  Proof.
    intros H. pose proof HNq as HN'. destruct (enc_raw_range f H) as [A B].
    pose proof (Qtrunc_nonneg _ A) as [C D].
    set (t := inject_Z (Qtrunc (enc_raw f))) in *.
    assert (E : f - (mn + t * (mx - mn) / inject_Z N) == (enc_raw f - t) * ((mx - mn) / inject_Z N)).
    { unfold enc_raw. field. split; lra. }
    assert (P : 0 < (mx - mn) / inject_Z N) by (apply Qlt_shift_div_l; lra).
    split; [split|split].
    - apply Qtrunc_nonneg_Z; exact A.
    - apply Qtrunc_le_Z; assumption.
    - rewrite E. apply Qmult_le_0_compat; lra.
    - rewrite E. setoid_replace ((mx - mn) / inject_Z N) with (1 * ((mx - mn) / inject_Z N)) at 2 by ring.
      apply Qmult_lt_compat_r; lra.
  Qed.

  Lemma dec_range t : (0 <= t <= N)%Z -> mn <= mn + inject_Z t * (mx - mn) / inject_Z N <= mx.
  Proof.
    intros [H1 H2]. pose proof HNq as HN'. rewrite Zle_Qle in H1, H2. change (inject_Z 0) with 0 in H1.
    assert (0 <= inject_Z t * (mx - mn) / inject_Z N).
    { apply Qle_shift_div_l; [exact HN'|]. ring_simplify. nra. }
    assert (inject_Z t * (mx - mn) / inject_Z N <= mx - mn).
    { apply Qle_shift_div_r; [exact HN'|]. nra. }
    lra.
  Qed.
End Enc.

Lemma us_some f mn mx : mn < mx -> mn <= f <= mx ->
  exists t, us f mn mx = Some t /\ (0 <= t <= 65535)%Z /\ 0 <= f - fp16 t mn mx /\ f - fp16 t mn mx < (mx - mn) / 65535.
Proof.
  intros Hm H. destruct (enc_dec 65535 mn mx eq_refl Hm f H) as [[A A'] [B C]].
  exists (Qtrunc (65535 * (f - mn) / (mx - mn))). unfold us. unfold enc_raw in *. change (inject_Z 65535) with 65535 in *.
  split; [|split; [split; assumption|split; assumption]].
  destruct (Z.leb_spec 0 (Qtrunc (65535 * (f - mn) / (mx - mn)))); [|lia].
  destruct (Z.leb_spec (Qtrunc (65535 * (f - mn) / (mx - mn))) 65535); [|lia]. reflexivity.
Qed.

Lemma uc_some f mn mx : mn < mx -> mn <= f <= mx ->
  exists t, uc f mn mx = Some t /\ (0 <= t <= 255)%Z /\ 0 <= f - fp8 t mn mx /\ f - fp8 t mn mx < (mx - mn) / 255.
Proof.
  intros Hm H. destruct (enc_dec 255 mn mx eq_refl Hm f H) as [[A A'] [B C]].
  exists (Qtrunc (255 * (f - mn) / (mx - mn))). unfold uc. unfold enc_raw in *. change (inject_Z 255) with 255 in *.
  split; [|split; [split; assumption|split; assumption]].
  destruct (Z.leb_spec 0 (Qtrunc (255 * (f - mn) / (mx - mn)))); [|lia].
  destruct (Z.leb_spec (Qtrunc (255 * (f - mn) / (mx - mn))) 255); [|lia]. reflexivity.
Qed.

Lemma us_range f mn mx t : us f mn mx = Some t -> (0 <= t <= 65535)%Z.
Proof. unfold us. destruct (Z.leb_spec 0 (Qtrunc (65535 * (f - mn) / (mx - mn)))); simpl; [|discriminate].
  destruct (Z.leb_spec (Qtrunc (65535 * (f - mn) / (mx - mn))) 65535); simpl; [|discriminate]. intros X; assert (t = Qtrunc (65535 * (f - mn) / (mx - mn))) by congruence. lia. Qed.
Lemma uc_range f mn mx t : uc f mn mx = Some t -> (0 <= t <= 255)%Z.
Proof. unfold uc. destruct (Z.leb_spec 0 (Qtrunc (255 * (f - mn) / (mx - mn)))); simpl; [|discriminate].
  destruct (Z.leb_spec (Qtrunc (255 * (f - mn) / (mx - mn))) 255); simpl; [|discriminate]. intros X; assert (t = Qtrunc (255 * (f - mn) / (mx - mn))) by congruence. lia. Qed.

Lemma fp16_range t mn mx : mn < mx -> (0 <= t <= 65535)%Z -> mn <= fp16 t mn mx <= mx.
Proof. intros Hm H. exact (dec_range 65535 mn mx eq_refl Hm t H). Qed.
Lemma fp8_range t mn mx : mn < mx -> (0 <= t <= 255)%Z -> mn <= fp8 t mn mx <= mx.
Proof. intros Hm H. exact (dec_range 255 mn mx eq_refl Hm t H). Qed.
Lemma fps16_range s mn mx : mn < mx -> (-32768 <= s <= 32767)%Z -> mn <= fps16 s mn mx <= mx.
Proof.
  intros Hm H. pose proof (fp16_range (s + 32768) mn mx Hm ltac:(lia)) as X.
  assert (E : fps16 s mn mx == fp16 (s + 32768) mn mx).
  { unfold fps16, fp16. rewrite inject_Z_plus. reflexivity. }
  rewrite E. exact X.
Qed.

(** ** Little-endian bytes *)

Lemma rd16_le16 z t l : (0 <= t)%Z -> rd16 z (le16 t ++ l) = (t, l).
Proof. intros H. unfold le16, rd16. simpl. f_equal. lia. Qed.

Lemma rd32_le32 z t l : (0 <= t < 2 ^ 32)%Z -> rd32 z (le32 t ++ l) = (t, l).
Proof.
  intros H. unfold le32, rd32, rd16. simpl. f_equal. lia.
Qed.

Lemma at16_le16 t l : (0 <= t)%Z -> at16 (le16 t ++ l) 0 = t.
Proof. intros H. unfold at16, le16; simpl. lia. Qed.

(** ** The converter's 12-bit code *)

Lemma adc_code_unsigned ub lb : (0 <= ub < 256)%Z -> (0 <= lb < 256)%Z ->
  Z.shiftr (Z.lor lb (Z.shiftl ub 8)) 4 = (16 * ub + lb / 16)%Z.
Proof.
  intros Hu Hl. rewrite Z.shiftr_div_pow2, Z.shiftl_mul_pow2 by lia.
  assert (E : Z.lor lb (ub * 2 ^ 8) = (lb + ub * 2 ^ 8)%Z).
  { symmetry. apply Z.add_nocarry_lxor || idtac.
    rewrite <- Z.lxor_lor; [apply Z.add_nocarry_lxor|].
    - apply Z.bits_inj'. intros n Hn. rewrite Z.land_spec, Z.bits_0.
      destruct (Z_lt_le_dec n 8).
      + rewrite Z.mul_pow2_bits_low by lia. apply andb_false_r.
      + rewrite (Z.bits_above_log2 lb n); [reflexivity|lia|].
        destruct (Z.eq_dec lb 0) as [->|N0]; [simpl; lia|].
        assert (Z.log2 lb < 8)%Z by (apply Z.log2_lt_pow2; lia). lia.
    - apply Z.bits_inj'. intros n Hn. rewrite Z.land_spec, Z.bits_0.
      destruct (Z_lt_le_dec n 8).
      + rewrite Z.mul_pow2_bits_low by lia. apply andb_false_r.
      + rewrite (Z.bits_above_log2 lb n); [reflexivity|lia|].
        destruct (Z.eq_dec lb 0) as [->|N0]; [simpl; lia|].
        assert (Z.log2 lb < 8)%Z by (apply Z.log2_lt_pow2; lia). lia. }
  rewrite E. change (2 ^ 8)%Z with 256%Z. change (2 ^ 4)%Z with 16%Z. lia.
Qed.

Lemma adc_code_spec ub lb : (0 <= ub < 256)%Z -> (0 <= lb < 256)%Z ->
  adc_code ub lb = (let u := 16 * ub + lb / 16 in if u <? 2048 then u else u - 4096)%Z.
Proof.
  intros Hu Hl. unfold adc_code. rewrite adc_code_unsigned by assumption. cbv zeta.
  remember (16 * ub + lb / 16)%Z as u eqn:Eu.
  assert (R : (0 <= u < 4096)%Z) by (subst; lia).
  assert (T : Z.testbit u 11 = negb (u <? 2048)%Z).
  { rewrite Z.testbit_odd, Z.shiftr_div_pow2 by lia. change (2 ^ 11)%Z with 2048%Z.
    destruct (Z.ltb_spec u 2048).
    - rewrite Z.div_small by lia. reflexivity.
    - replace (u / 2048)%Z with 1%Z by lia. reflexivity. }
  rewrite T. destruct (Z.ltb_spec u 2048); [reflexivity|]. simpl negb. cbv iota.
  assert (E : Z.lor u 61440 = (u + 61440)%Z).
  { symmetry. rewrite <- Z.lxor_lor; [apply Z.add_nocarry_lxor|].
    - change 61440%Z with (15 * 2 ^ 12)%Z. apply Z.bits_inj'. intros n Hn. rewrite Z.land_spec, Z.bits_0.
      destruct (Z_lt_le_dec n 12).
      + rewrite Z.mul_pow2_bits_low by lia. apply andb_false_r.
      + rewrite (Z.bits_above_log2 u n); [reflexivity|lia|]. assert (Z.log2 u < 12)%Z by (apply Z.log2_lt_pow2; lia). lia.
    - change 61440%Z with (15 * 2 ^ 12)%Z. apply Z.bits_inj'. intros n Hn. rewrite Z.land_spec, Z.bits_0.
      destruct (Z_lt_le_dec n 12).
      + rewrite Z.mul_pow2_bits_low by lia. apply andb_false_r.
      + rewrite (Z.bits_above_log2 u n); [reflexivity|lia|]. assert (Z.log2 u < 12)%Z by (apply Z.log2_lt_pow2; lia). lia. }
  rewrite E. unfold swrap. change (2 ^ (16 - 1))%Z with 32768%Z. change (2 ^ 16)%Z with 65536%Z. lia.
Qed.
