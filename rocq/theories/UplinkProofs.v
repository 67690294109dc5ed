From Verif Require Import Base BitstreamModel BitstreamSpec BitstreamProofs UplinkModel UplinkSpec.
Local Open Scope nat_scope.

(** ** bits *)
Lemma firstn_val_bits m : forall n v, m <= n -> firstn m (val_bits n v) = val_bits m v.
Proof.
  induction m as [|m IH]; intros n v H; [reflexivity|]. destruct n as [|n]; [lia|].
  cbn [val_bits firstn]. rewrite IH by lia. reflexivity.
Qed.

Lemma skipn_val_bits m : forall n v, skipn m (val_bits n v) = val_bits (n - m) (v / 2 ^ Z.of_nat m).
Proof.
  induction m as [|m IH]; intros n v.
  - cbn [skipn]. rewrite Nat.sub_0_r. change (2 ^ Z.of_nat 0)%Z with 1%Z. rewrite Z.div_1_r. reflexivity.
  - destruct n as [|n]; cbn [val_bits skipn Nat.sub]; [reflexivity|]. rewrite IH. f_equal.
    rewrite Nat2Z.inj_succ, Z.pow_succ_r by lia. rewrite Z.div_div by (try apply Z.pow_pos_nonneg; lia). reflexivity.
Qed.

Lemma val_bits_app a b v : val_bits (a + b) v = val_bits a v ++ val_bits b (v / 2 ^ Z.of_nat a).
Proof.
  rewrite <- (firstn_skipn a (val_bits (a + b) v)). rewrite firstn_val_bits, skipn_val_bits by lia.
  f_equal. f_equal. lia.
Qed.

Lemma val_bits_zero n : val_bits n 0 = repeat false n.
Proof. induction n as [|n IH]; [reflexivity|]. cbn [val_bits repeat]. change (0 / 2)%Z with 0%Z. rewrite IH. reflexivity. Qed.

Lemma concat_bytes64 v : concat (bytes64 v) = val_bits 64 v.
Proof.
  unfold bytes64. change (seq 0 8) with [0;1;2;3;4;5;6;7].
  change 64 with (8 + (8 + (8 + (8 + (8 + (8 + (8 + (8 + 0)))))))).
  rewrite !val_bits_app. rewrite !Z.div_div by (first [apply Z.pow_pos_nonneg; lia | lia]).
  cbn [map concat]. change (val_bits 0) with (fun _ : Z => @nil bool). cbv beta.
  repeat match goal with |- _ ++ _ = _ ++ _ => f_equal end; try reflexivity;
    f_equal; try (rewrite Z.mul_0_r, Z.pow_0_r, Z.div_1_r; reflexivity).
Qed.

Lemma bytes64_wf v : wf_bytes (bytes64 v).
Proof.
  unfold bytes64, wf_bytes. apply Forall_forall. intros x Hx. apply in_map_iff in Hx.
  destruct Hx as (i & <- & _). apply val_bits_length.
Qed.

Lemma bits_val_zero_iff l : bits_val l = 0%Z <-> l = repeat false (length l).
Proof.
  split.
  - intros H. apply bits_val_inj; [rewrite repeat_length; reflexivity|]. rewrite bits_val_repeat_false. assumption.
  - intros ->. apply bits_val_repeat_false.
Qed.

(** ** the registry index width *)
Lemma index_size_from_spec fuel : forall k n,
  (0 <= n)%Z -> (n + 1 < 2 ^ (Z.of_nat (k + fuel)))%Z ->
  (forall j, 1 <= j < k -> (2 ^ Z.of_nat j <= n + 1)%Z) -> 1 <= k ->
  let r := index_size_from fuel k n in
  (n + 1 < 2 ^ Z.of_nat r)%Z /\ k <= r <= k + fuel /\ (forall j, 1 <= j < r -> (2 ^ Z.of_nat j <= n + 1)%Z).
Proof.
  induction fuel as [|f IH]; intros k n Hn HB HJ HK; cbn [index_size_from].
  - rewrite Nat.add_0_r in *. cbv zeta. split; [assumption|]. split; [lia|assumption].
  - assert (HP : (0 < 2 ^ Z.of_nat k)%Z) by (apply Z.pow_pos_nonneg; lia).
    destruct (Z.ltb_spec 0 ((n + 1) / 2 ^ Z.of_nat k)) as [H|H].
    + assert (HS : (2 ^ Z.of_nat k <= n + 1)%Z).
      { destruct (Z.le_gt_cases (2 ^ Z.of_nat k) (n + 1)); [assumption|].
        rewrite Z.div_small in H by lia. lia. }
      destruct (IH (S k) n Hn) as (A & B & C).
      * replace (S k + f) with (k + S f) by lia. assumption.
      * intros j Hj. destruct (Nat.eq_dec j k) as [->|]; [assumption|]. apply HJ. lia.
      * lia.
      * cbv zeta. split; [assumption|]. split; [lia|assumption].
    + cbv zeta. split; [|split; [lia|assumption]].
      destruct (Z.le_gt_cases (2 ^ Z.of_nat k) (n + 1)) as [HS|HS]; [|lia].
      assert (1 <= (n + 1) / 2 ^ Z.of_nat k)%Z; [|lia]. apply Z.div_le_lower_bound; lia.
Qed.

Lemma pow2_gt n : (Z.of_nat n + 1 < 2 ^ Z.of_nat (1 + n))%Z \/ n = 0.
Proof.
  induction n as [|n IH]; [right; reflexivity|]. left.
  replace (Z.of_nat (1 + S n)) with (Z.succ (Z.of_nat (1 + n))) by lia. rewrite Z.pow_succ_r by lia.
  destruct IH as [IH| ->]; [lia|]. cbn. lia.
Qed.

Lemma index_size_spec n :
  (Z.of_nat n + 1 < 2 ^ Z.of_nat (index_size n))%Z /\ 1 <= index_size n /\
  (forall j, 1 <= j < index_size n -> (2 ^ Z.of_nat j <= Z.of_nat n + 1)%Z).
Proof.
  unfold index_size. destruct (index_size_from_spec n 1 (Z.of_nat n)) as (A & B & C); try lia.
  - destruct (pow2_gt n) as [H| ->]; [exact H|]. vm_compute. reflexivity.
  - split; [assumption|]. split; [lia|assumption].
Qed.

Lemma index_size_le n k : 1 <= k -> (Z.of_nat n + 1 < 2 ^ Z.of_nat k)%Z -> index_size n <= k.
Proof.
  intros HK H. destruct (index_size_spec n) as (_ & _ & C).
  destruct (Nat.le_gt_cases (index_size n) k); [assumption|]. specialize (C k ltac:(lia)). lia.
Qed.

(** ** reading an index *)
Lemma read_index_spec isz s fi :
  wf_bs s -> isz <= 64 -> (0 <= fi < 2 ^ Z.of_nat isz)%Z ->
  let k := Nat.min isz (remaining s) in
  read_index isz s fi = Some (at_pos (bs_buf s) (position s + k), bits_val (firstn k (rest s)), k).
Proof.
  intros W HI HF k. unfold read_index.
  destruct (nextN_spec s isz (bytes64 fi) W (bytes64_wf fi)) as (b & E & _ & _ & C).
  { change (length (bytes64 fi)) with 8. lia. }
  fold k in E, C. rewrite E. f_equal. f_equal. f_equal. unfold val64. rewrite C, concat_bytes64.
  set (m := 8 * ((isz + 7) / 8)) in *.
  assert (LF : length (firstn k (rest s)) = k) by (rewrite firstn_length, rest_length by assumption; unfold k; lia).
  unfold overwrite. cbn [firstn app]. rewrite app_length, LF, repeat_length.
  replace (0 + (k + (m - k))) with m by (unfold m, k; lia).
  rewrite skipn_val_bits. rewrite Z.div_small.
  - rewrite val_bits_zero, !bits_val_app, !bits_val_repeat_false. lia.
  - split; [lia|]. eapply Z.lt_le_trans; [apply HF|]. apply Z.pow_le_mono_r; unfold m; lia.
Qed.

(** value of a read index *)
Lemma bits_val_lt_pow l k : length l <= k -> (0 <= bits_val l < 2 ^ Z.of_nat k)%Z.
Proof.
  intros H. pose proof (bits_val_range l). split; [lia|]. eapply Z.lt_le_trans; [apply H0|].
  apply Z.pow_le_mono_r; lia.
Qed.

(** ** validation *)
Definition vu (lens : list nat) (U : list bool) (es : list assignment) : Prop :=
  NoDup (map fst es) /\
  Forall (fun e => nth_error lens (fst e) = Some (length (snd e)) /\ snd e <> [] /\ nth_error U (fst e) = Some false) es.

Lemma get_field_length_some lens i : get_field_length lens i <> 0 -> nth_error lens i = Some (get_field_length lens i).
Proof. unfold get_field_length. destruct (nth_error lens i); [reflexivity|congruence]. Qed.

Section Valid.
  Variables (lens : list nat) (isz : nat).
  Hypothesis HISZ : 1 <= isz <= 64.
  Hypothesis HN : (Z.of_nat (length lens) + 1 < 2 ^ Z.of_nat isz)%Z.

  Lemma wire_cons i b es : wire isz ((i, b) :: es) = (val_bits isz (Z.of_nat i + 1) ++ b) ++ wire isz es.
  Proof. reflexivity. Qed.

  (** one iteration when the rest starts with an index *)
  Lemma fits_seek s n : wf_bs s -> n <= remaining s ->
    seekG s (Z.of_nat n) 1 = (at_pos (bs_buf s) (position s + n), Z.of_nat n).
  Proof.
    intros W H. pose proof W as (_ & _ & HP & HL). rewrite remaining_len in H by assumption.
    rewrite seekG_fwd by (try assumption; lia).
    destruct (Z.leb_spec (Z.of_nat (position s) + Z.of_nat n) (Z.of_nat (8 * bs_len s))); [|lia].
    rewrite Nat2Z.id. reflexivity.
  Qed.

  Lemma nofit_seek s n : wf_bs s -> remaining s < n -> exists s' c, seekG s (Z.of_nat n) 1 = (s', c) /\ c <> Z.of_nat n \/
     (Z.of_nat n >= 2 ^ 31)%Z.
  Proof.
    intros W H. pose proof W as (_ & _ & HP & HL). rewrite remaining_len in H by assumption.
    destruct (Z.lt_ge_cases (Z.of_nat n) (2 ^ 31)).
    - exists s, 0%Z. left. rewrite seekG_fwd by (try assumption; lia).
      destruct (Z.leb_spec (Z.of_nat (position s) + Z.of_nat n) (Z.of_nat (8 * bs_len s))); [lia|].
      split; [reflexivity|lia].
    - exists s, 0%Z. right. lia.
  Qed.

  (** field widths are far below 2^31 bits *)
  Hypothesis HLENS : Forall (fun l => (Z.of_nat l < 2 ^ 31)%Z) lens.

  Lemma len_small i l : nth_error lens i = Some l -> (Z.of_nat l < 2 ^ 31)%Z.
  Proof. intros H. rewrite Forall_forall in HLENS. apply HLENS. eapply nth_error_In; eauto. Qed.

  Lemma validate_loop_spec fuel : forall s fi U,
    wf_bs s -> length U = length lens -> (0 <= fi < 2 ^ Z.of_nat isz)%Z -> remaining s <= fuel ->
    match validate_loop fuel isz lens s fi U (Z.of_nat (position s)) with
    | None => False
    | Some (VEnd s1) =>
        wf_bs s1 /\ bs_buf s1 = bs_buf s /\
        exists es z, vu lens U es /\ rest s = wire isz es ++ repeat false z ++ rest s1 /\ z <= isz /\
                     (z = isz \/ rest s1 = [])
    | Some VFalse => forall es pad, vu lens U es -> rest s <> wire isz es ++ repeat false pad
    end.
  Proof.
    induction fuel as [|f IH]; intros s fi U W LU HF HR.
    - pose proof W as (_ & _ & HP & _). rewrite remaining_len in HR by assumption. cbn [validate_loop].
      destruct (Z.ltb_spec (Z.of_nat (position s)) (8 * Z.of_nat (bs_len s))); [lia|].
      split; [assumption|]. split; [reflexivity|]. exists [], 0. split; [split; constructor|].
      split; [reflexivity|]. split; [lia|]. right. apply length_zero_iff_nil.
      rewrite rest_length, remaining_len by assumption. lia.
    - cbn [validate_loop]. pose proof (remaining_len s W) as RL. pose proof (rest_length s W) as RS.
      destruct (Z.ltb_spec (Z.of_nat (position s)) (8 * Z.of_nat (bs_len s))) as [HC|HC].
      2:{ split; [assumption|]. split; [reflexivity|]. exists [], 0. split; [split; constructor|].
          split; [reflexivity|]. split; [lia|]. right. apply length_zero_iff_nil. lia. }
      rewrite read_index_spec by (try assumption; lia). set (k := Nat.min isz (remaining s)).
      set (ib := firstn k (rest s)).
      assert (LI : length ib = k) by (unfold ib; rewrite firstn_length; unfold k; lia).
      set (s1 := at_pos (bs_buf s) (position s + k)).
      assert (W1 : wf_bs s1) by (apply next_wf; [assumption|unfold k; lia]).
      assert (R1 : remaining s1 = remaining s - k) by (apply remaining_adv; assumption).
      assert (RE1 : rest s1 = skipn k (rest s)) by apply rest_adv.
      assert (RSPLIT : rest s = ib ++ rest s1) by (rewrite RE1; symmetry; apply firstn_skipn).
      destruct (Z.eqb_spec (bits_val ib) 0) as [HZ|HZ].
      { split; [assumption|]. split; [reflexivity|]. exists [], k. split; [split; constructor|].
        split. { cbn [wire flat_map app]. rewrite RSPLIT. f_equal. rewrite <- LI. apply bits_val_zero_iff. assumption. }
        split; [unfold k; lia|]. destruct (Nat.eq_dec k isz); [left; assumption|right].
        apply length_zero_iff_nil. rewrite rest_length, R1 by assumption. unfold k in *. lia. }
      pose proof (bits_val_range ib) as BR.
      set (idx := Z.to_nat (bits_val ib - 1)).
      assert (HIDX : (Z.of_nat idx + 1 = bits_val ib)%Z) by (unfold idx; lia).
      (* any packet reading of the rest must start with this index *)
      assert (HEAD : forall es pad, vu lens U es -> rest s = wire isz es ++ repeat false pad ->
                exists b es', es = (idx, b) :: es' /\ k = isz /\ rest s1 = b ++ wire isz es' ++ repeat false pad /\
                  nth_error lens idx = Some (length b) /\ b <> [] /\ nth_error U idx = Some false).
      { intros es pad [ND FA] E. destruct es as [|[i b] es'].
        - exfalso. apply HZ. cbn [wire flat_map app] in E. apply bits_val_zero_iff. rewrite LI. unfold ib. rewrite E.
          rewrite E, repeat_length in RS.
          replace pad with (k + (pad - k)) at 1 by (unfold k; lia). rewrite repeat_app.
          rewrite firstn_app_le by (rewrite repeat_length; lia). rewrite firstn_all2 by (rewrite repeat_length; lia).
          reflexivity.
        - inversion FA as [|? ? (F1 & F2 & F3) FA']; subst. cbn [fst snd] in *.
          rewrite wire_cons in E. rewrite <- !app_assoc in E.
          assert (LR : isz <= remaining s).
          { rewrite <- RS, E, !app_length, val_bits_length. lia. }
          assert (K : k = isz) by (unfold k; lia).
          assert (EI : ib = val_bits isz (Z.of_nat i + 1)).
          { unfold ib. rewrite K, E. rewrite firstn_app_le by (rewrite val_bits_length; lia).
            apply firstn_all2. rewrite val_bits_length. lia. }
          assert (HI : i < length lens) by (apply nth_error_Some; congruence).
          assert (II : i = idx).
          { rewrite EI in HIDX. rewrite bits_val_val_bits_small in HIDX by lia. lia. }
          subst i. exists b, es'. split; [reflexivity|]. split; [exact K|]. split; [|auto].
          rewrite RE1, E, K, skipn_app, skipn_all2 by (rewrite val_bits_length; lia).
          rewrite val_bits_length, Nat.sub_diag. reflexivity. }
      destruct (Nat.eqb_spec (get_field_length lens idx) 0) as [HL0|HL0].
      { intros es pad HV E. destruct (HEAD es pad HV E) as (b & es' & _ & _ & _ & A & B & _).
        unfold get_field_length in HL0. rewrite A in HL0. destruct b; [congruence|discriminate]. }
      pose proof (get_field_length_some _ _ HL0) as HL. set (flen := get_field_length lens idx) in *.
      assert (HIL : idx < length lens) by (apply nth_error_Some; congruence).
      destruct (nth_error U idx) as [seen|] eqn:EU; [|apply nth_error_None in EU; lia].
      destruct (seen || negb (Nat.eqb k isz))%bool eqn:EB.
      { intros es pad HV E. destruct (HEAD es pad HV E) as (b & es' & _ & K & _ & _ & _ & B).
        injection B as ->. rewrite K, Nat.eqb_refl in EB. discriminate. }
      apply orb_false_iff in EB. destruct EB as [-> EB]. apply negb_false_iff, Nat.eqb_eq in EB.
      destruct (upd U idx true) as [U'|] eqn:EUP; [|apply upd_none_iff in EUP; lia].
      destruct (Nat.le_gt_cases flen (remaining s1)) as [HFIT|HFIT].
      2:{ assert (HS31 : (Z.of_nat flen < 2 ^ 31)%Z) by (eapply len_small; eauto).
          destruct (nofit_seek s1 flen W1 HFIT) as (s' & c & [(ES & NC)|BIG]); [|lia].
          rewrite ES. destruct (Z.eqb_spec c (Z.of_nat flen)); [contradiction|]. cbn [negb].
          intros es pad HV E. destruct (HEAD es pad HV E) as (b & es' & _ & _ & RB & A & _ & _).
          rewrite <- rest_length, RB, app_length in HFIT by assumption.
          rewrite HL in A. injection A as A. lia. }
      rewrite fits_seek by assumption. rewrite Z.eqb_refl. cbn [negb].
      set (s2 := at_pos (bs_buf s1) (position s1 + flen)).
      assert (W2 : wf_bs s2) by (apply next_wf; assumption).
      assert (P2 : Z.of_nat (position s2) = (Z.of_nat (position s) + Z.of_nat k + Z.of_nat flen)%Z).
      { unfold s2, s1. rewrite !at_pos_position. lia. }
      rewrite <- P2.
      assert (R2 : remaining s2 = remaining s1 - flen) by (apply remaining_adv; assumption).
      assert (RE2 : rest s2 = skipn flen (rest s1)) by apply rest_adv.
      assert (B2 : bs_buf s2 = bs_buf s) by reflexivity.
      assert (LU' : length U' = length lens) by (rewrite (upd_length _ _ _ _ EUP); assumption).
      assert (HF' : (0 <= bits_val ib - 1 < 2 ^ Z.of_nat isz)%Z).
      { pose proof (bits_val_lt_pow ib isz ltac:(lia)). lia. }
      specialize (IH s2 (bits_val ib - 1)%Z U' W2 LU' HF' ltac:(lia)).
      destruct (validate_loop f isz lens s2 (bits_val ib - 1) U' (Z.of_nat (position s2))) as [[s3|]|] eqn:EL; [| |assumption].
      + destruct IH as (W3 & B3 & es & z & HV & RZ & HZ1 & HZ2).
        split; [assumption|]. split; [congruence|].
        exists ((idx, firstn flen (rest s1)) :: es), z.
        assert (LB : length (firstn flen (rest s1)) = flen) by (rewrite firstn_length, rest_length by assumption; lia).
        split; [|split; [|split; assumption]].
        * destruct HV as [ND FA]. split.
          -- cbn [map fst]. constructor; [|assumption]. intros HIN. apply in_map_iff in HIN.
             destruct HIN as ([i b] & EI & HIN). cbn [fst] in EI. subst i.
             rewrite Forall_forall in FA. destruct (FA _ HIN) as (_ & _ & X). cbn [fst] in X.
             rewrite (upd_nth_error _ _ _ _ EUP), Nat.eqb_refl in X. discriminate.
          -- constructor.
             ++ cbn [fst snd]. rewrite LB. split; [assumption|]. split; [|assumption].
                intros EN. rewrite EN in LB. cbn in LB. lia.
             ++ rewrite Forall_forall in *. intros [i b] HIN. destruct (FA _ HIN) as (X1 & X2 & X3). cbn [fst snd] in *.
                split; [assumption|]. split; [assumption|]. rewrite (upd_nth_error _ _ _ _ EUP) in X3.
                destruct (Nat.eqb_spec i idx); [discriminate|assumption].
        * rewrite wire_cons, <- !app_assoc, <- RZ, RE2, firstn_skipn. rewrite RSPLIT. f_equal.
          apply bits_val_inj; [rewrite LI, val_bits_length; assumption|].
          rewrite HIDX, bits_val_val_bits_small; [reflexivity|]. rewrite <- EB, <- LI. apply bits_val_range.
      + intros es pad HV E. destruct (HEAD es pad HV E) as (b & es' & EE & _ & RB & A & _ & _). subst es.
        rewrite HL in A. injection A as A. apply (IH es' pad).
        * destruct HV as [ND FA]. cbn [map fst] in ND. apply NoDup_cons_iff in ND. destruct ND as [NI ND'].
          apply Forall_cons_iff in FA. destruct FA as [_ FA']. split; [assumption|].
          rewrite Forall_forall in *. intros [i c] HIN. destruct (FA' _ HIN) as (X1 & X2 & X3). cbn [fst snd] in *.
          split; [assumption|]. split; [assumption|]. rewrite (upd_nth_error _ _ _ _ EUP).
          destruct (Nat.eqb_spec i idx) as [->|]; [|assumption].
          exfalso. apply NI. apply in_map_iff. exists (idx, c). auto.
        * rewrite RE2, RB, A, skipn_app, skipn_all, Nat.sub_diag. reflexivity.
  Qed.

  Lemma vu_initial es : vu lens (repeat false (length lens)) es <-> valid_assignments lens es.
  Proof.
    unfold vu, valid_assignments. split; intros [ND FA]; (split; [assumption|]); rewrite Forall_forall in *; intros e HE;
      specialize (FA e HE).
    - tauto.
    - destruct FA as [A B]. split; [assumption|]. split; [assumption|].
      apply nth_error_repeat. apply nth_error_Some. congruence.
  Qed.

  Lemma existsb_false_repeat l : existsb (fun b : bool => b) l = false <-> l = repeat false (length l).
  Proof.
    induction l as [|b l IH]; cbn [existsb repeat length]; [tauto|]. rewrite orb_false_iff, IH. split.
    - intros [-> ->]. rewrite repeat_length. reflexivity.
    - intros H. injection H as -> H. split; [reflexivity|assumption].
  Qed.

  (** parsing is unambiguous about the tail *)
  Lemma wire_tail_unique s1 es z es' pad :
    vu lens (repeat false (length lens)) es -> vu lens (repeat false (length lens)) es' ->
    z <= isz -> (z = isz \/ s1 = []) ->
    wire isz es ++ repeat false z ++ s1 = wire isz es' ++ repeat false pad -> s1 = repeat false (pad - z) /\ z <= pad.
  Proof.
    intros HV HV' HZ HZ2. revert es' HV'.
    assert (GEN : forall es, Forall (fun e => nth_error lens (fst e) = Some (length (snd e)) /\ snd e <> []) es ->
      forall es', Forall (fun e => nth_error lens (fst e) = Some (length (snd e)) /\ snd e <> []) es' ->
      wire isz es ++ repeat false z ++ s1 = wire isz es' ++ repeat false pad -> s1 = repeat false (pad - z) /\ z <= pad).
    { clear HV es. intros es FA. induction FA as [|[i b] es (F1 & F2) FA IH]; intros es' FA' E.
      - destruct es' as [|[j c] es'].
        + cbn [wire flat_map app] in E. assert (LL : z + length s1 = pad) by
            (apply (f_equal (@length bool)) in E; rewrite app_length, !repeat_length in E; assumption).
          replace pad with (z + (pad - z)) in E by lia. rewrite repeat_app in E. apply app_inv_head in E.
          split; [assumption|lia].
        + inversion FA' as [|? ? (G1 & G2) _]; subst. cbn [fst snd] in *. exfalso.
          rewrite wire_cons, <- !app_assoc in E. cbn [wire flat_map app] in E.
          assert (HJ : j < length lens) by (apply nth_error_Some; congruence).
          destruct HZ2 as [-> | ->].
          * apply (f_equal (firstn isz)) in E.
            rewrite !firstn_app_le in E by (rewrite ?repeat_length, ?val_bits_length; lia).
            rewrite !firstn_all2 in E by (rewrite ?repeat_length, ?val_bits_length; lia).
            apply (f_equal bits_val) in E. rewrite bits_val_repeat_false, bits_val_val_bits_small in E by lia. lia.
          * rewrite app_nil_r in E. pose proof (f_equal (@length bool) E) as LE.
            rewrite !app_length, !repeat_length, val_bits_length in LE. destruct c; [congruence|]. cbn in LE. lia.
      - cbn [fst snd] in *. destruct es' as [|[j c] es'].
        + exfalso. rewrite wire_cons, <- !app_assoc in E. cbn [wire flat_map app] in E.
          assert (HI : i < length lens) by (apply nth_error_Some; congruence).
          pose proof (f_equal (@length bool) E) as LE. rewrite !app_length, !repeat_length, val_bits_length in LE.
          apply (f_equal (firstn isz)) in E. rewrite firstn_app_le in E by (rewrite ?val_bits_length; lia).
          rewrite firstn_all2 in E by (rewrite ?val_bits_length; lia).
          replace pad with (isz + (pad - isz)) in E by lia. rewrite repeat_app in E.
          rewrite firstn_app_le in E by (rewrite repeat_length; lia).
          rewrite firstn_all2 in E by (rewrite repeat_length; lia).
          apply (f_equal bits_val) in E. rewrite bits_val_repeat_false, bits_val_val_bits_small in E by lia. lia.
        + inversion FA' as [|? ? (G1 & G2) FA'']; subst. cbn [fst snd] in *.
          rewrite !wire_cons, <- !app_assoc in E.
          assert (HI : i < length lens) by (apply nth_error_Some; congruence).
          assert (HJ : j < length lens) by (apply nth_error_Some; congruence).
          assert (EI : val_bits isz (Z.of_nat i + 1) = val_bits isz (Z.of_nat j + 1)).
          { apply (f_equal (firstn isz)) in E. rewrite !firstn_app_le in E by (rewrite ?val_bits_length; lia).
            rewrite !firstn_all2 in E by (rewrite ?val_bits_length; lia). assumption. }
          rewrite EI in E. apply app_inv_head in E.
          apply (f_equal bits_val) in EI. rewrite !bits_val_val_bits_small in EI by lia.
          assert (i = j) by lia. subst j. rewrite F1 in G1. injection G1 as G1.
          assert (EB : b = c).
          { pose proof (f_equal (firstn (length b)) E) as EF. rewrite !firstn_app_le in EF by lia.
            rewrite !firstn_all2 in EF by lia. assumption. }
          subst c. apply app_inv_head in E. apply (IH es'); assumption. }
    intros es' HV'. apply GEN.
    - apply vu_initial in HV. apply HV.
    - apply vu_initial in HV'. apply HV'.
  Qed.

  Lemma validate_packet_spec buf :
    wf_bytes buf -> (8 * Z.of_nat (length buf) < 2 ^ 31 - 8)%Z ->
    exists r, validate_packet isz lens (bs_make buf) = Some r /\
              (r = true <-> exists es, packet isz lens (concat buf) es).
  Proof.
    intros WB HL. unfold validate_packet.
    set (s := bs_reset (bs_make buf)).
    assert (W : wf_bs s) by (apply (wf_at_pos buf 0); [assumption|lia|assumption]).
    assert (RS : rest s = concat buf) by reflexivity.
    assert (RM : remaining s = 8 * length buf) by (rewrite remaining_len by assumption; unfold s, bs_len, position; cbn [bs_reset bs_make bs_buf bs_byte bs_bit]; lia).
    assert (HF0 : (0 <= 0 < 2 ^ Z.of_nat isz)%Z) by (split; [lia|apply Z.pow_pos_nonneg; lia]).
    pose proof (validate_loop_spec (8 * bs_len (bs_make buf)) s 0%Z (repeat false (length lens)) W
                  ltac:(rewrite repeat_length; reflexivity) HF0 ltac:(rewrite RM; reflexivity)) as H.
    replace (Z.of_nat (position s)) with 0%Z in H by reflexivity.
    destruct (validate_loop _ isz lens s 0 _ 0) as [[s1|]|] eqn:EL; [| |contradiction].
    - destruct H as (W1 & B1 & es & z & HV & RZ & HZ1 & HZ2).
      destruct (nextN_spec s1 8 [zero_byte] W1 ltac:(repeat constructor) ltac:(cbn; lia)) as (r8 & E8 & W8 & L8 & C8).
      set (k := Nat.min 8 (remaining s1)) in *. rewrite E8.
      destruct r8 as [|u8 [|? ?]]; try discriminate.
      assert (LF : length (firstn k (rest s1)) = k) by (rewrite firstn_length, rest_length by assumption; unfold k; lia).
      assert (UE : u8 = firstn k (rest s1) ++ repeat false (8 - k)).
      { cbn [concat] in C8. rewrite app_nil_r in C8. rewrite C8. unfold overwrite. cbn [firstn app].
        rewrite app_length, LF, repeat_length. change (8 * ((8 + 7) / 8)) with 8.
        rewrite skipn_all2; [rewrite app_nil_r; reflexivity|]. rewrite app_length. cbn [length]. change (length zero_byte) with 8. unfold k. lia. }
      eexists. split; [reflexivity|].
      rewrite negb_true_iff, orb_false_iff, existsb_false_repeat, Nat.ltb_ge.
      rewrite RS in RZ. pose proof (rest_length s1 W1) as RL1. split.
      + intros [U0 K7]. assert (K : k = remaining s1) by (unfold k in *; lia).
        assert (R0 : rest s1 = repeat false (remaining s1)).
        { rewrite UE, app_length, LF, repeat_length in U0. rewrite K in U0. rewrite firstn_all2 in U0 by lia.
          rewrite repeat_app in U0. apply (f_equal (firstn (remaining s1))) in U0.
          rewrite !firstn_app_le in U0 by (rewrite ?repeat_length; lia).
          rewrite !firstn_all2 in U0 by (rewrite ?repeat_length; lia). assumption. }
        exists es. split; [apply vu_initial; assumption|]. exists (z + remaining s1). split; [lia|].
        rewrite repeat_app, <- R0. exact RZ.
      + intros (es' & HV' & pad & HP & E). apply vu_initial in HV'. rewrite RZ in E.
        destruct (wire_tail_unique _ _ _ _ _ HV HV' HZ1 HZ2 E) as [T1 T2].
        assert (R1 : remaining s1 = pad - z) by (rewrite <- RL1, T1, repeat_length; reflexivity).
        assert (K7 : k <= 7).
        { destruct HZ2 as [-> | HZ2]; [unfold k; lia|]. rewrite HZ2 in RL1. cbn in RL1. unfold k. lia. }
        split; [|assumption]. rewrite UE, app_length, LF, repeat_length, repeat_app. f_equal.
        assert (K : k = pad - z) by (unfold k in *; lia). rewrite T1, <- K. apply firstn_all2. rewrite repeat_length. lia.
    - exists false. split; [reflexivity|]. split; [discriminate|].
      intros (es & HV & pad & HP & E). exfalso. apply vu_initial in HV. apply (H es pad HV). rewrite RS. exact E.
  Qed.
End Valid.

Lemma isz_bounds n : (Z.of_nat n < 2 ^ 30)%Z -> 1 <= index_size n <= 64.
Proof.
  intros H. pose proof (index_size_spec n) as (_ & A & _).
  pose proof (index_size_le n 31 ltac:(lia) ltac:(change (Z.of_nat 31) with 31%Z; lia)). lia.
Qed.

Lemma assigned_app_unique isz lens bits es es' :
  1 <= isz -> (Z.of_nat (length lens) + 1 < 2 ^ Z.of_nat isz)%Z ->
  packet isz lens bits es -> packet isz lens bits es' -> es = es'.
Proof.
  intros HI HN ((ND & FA) & pad & HP & E) ((ND' & FA') & pad' & HP' & E').
  rewrite E in E'. clear ND ND' HP HP' E. revert es' FA' E'.
  induction FA as [|[i b] es (F1 & F2) FA IH]; intros [|[j c] es'] FA' E.
  - reflexivity.
  - exfalso. apply Forall_cons_iff in FA'. destruct FA' as [[G1 G2] _]. cbn [fst snd] in *.
    rewrite wire_cons, <- !app_assoc in E. cbn [wire flat_map app] in E.
    assert (HJ : j < length lens) by (apply nth_error_Some; congruence).
    pose proof (f_equal (@length bool) E) as LE. rewrite !app_length, !repeat_length, val_bits_length in LE.
    apply (f_equal (firstn isz)) in E. rewrite (firstn_app_le (val_bits _ _)) in E by (rewrite val_bits_length; lia).
    rewrite (firstn_all2 (val_bits _ _)) in E by (rewrite val_bits_length; lia).
    replace pad with (isz + (pad - isz)) in E by lia. rewrite repeat_app in E.
    rewrite firstn_app_le in E by (rewrite repeat_length; lia).
    rewrite firstn_all2 in E by (rewrite repeat_length; lia).
    apply (f_equal bits_val) in E. rewrite bits_val_repeat_false, bits_val_val_bits_small in E by lia. lia.
  - exfalso. cbn [fst snd] in *.
    rewrite wire_cons, <- !app_assoc in E. cbn [wire flat_map app] in E.
    assert (HJ : i < length lens) by (apply nth_error_Some; congruence).
    pose proof (f_equal (@length bool) E) as LE. rewrite !app_length, !repeat_length, val_bits_length in LE.
    apply (f_equal (firstn isz)) in E. rewrite (firstn_app_le (val_bits _ _)) in E by (rewrite val_bits_length; lia).
    rewrite (firstn_all2 (val_bits _ _)) in E by (rewrite val_bits_length; lia).
    replace pad' with (isz + (pad' - isz)) in E by lia. rewrite repeat_app in E.
    rewrite firstn_app_le in E by (rewrite repeat_length; lia).
    rewrite firstn_all2 in E by (rewrite repeat_length; lia).
    apply (f_equal bits_val) in E. rewrite bits_val_repeat_false, bits_val_val_bits_small in E by lia. lia.
  - apply Forall_cons_iff in FA'. destruct FA' as [[G1 G2] FA']. cbn [fst snd] in *.
    rewrite !wire_cons, <- !app_assoc in E.
    assert (HI' : i < length lens) by (apply nth_error_Some; congruence).
    assert (HJ : j < length lens) by (apply nth_error_Some; congruence).
    assert (EI : val_bits isz (Z.of_nat i + 1) = val_bits isz (Z.of_nat j + 1)).
    { apply (f_equal (firstn isz)) in E. rewrite !firstn_app_le in E by (rewrite ?val_bits_length; lia).
      rewrite !firstn_all2 in E by (rewrite ?val_bits_length; lia). assumption. }
    rewrite EI in E. apply app_inv_head in E.
    apply (f_equal bits_val) in EI. rewrite !bits_val_val_bits_small in EI by lia.
    assert (i = j) by lia. subst j. rewrite F1 in G1. injection G1 as G1.
    assert (EB : b = c).
    { pose proof (f_equal (firstn (length b)) E) as EF. rewrite !firstn_app_le in EF by lia.
      rewrite !firstn_all2 in EF by lia. assumption. }
    subst c. apply app_inv_head in E. f_equal. apply IH; assumption.
Qed.

(** ** applying a packet *)
Section Update.
  Variable V : Type.
  Variable deser : nat -> list bool -> V -> V.

  Definition widths (fs : list (wfield V)) : list nat := map (fun f => length (wf_bits f)) fs.

  Lemma widths_nth fs i : nth_error (widths fs) i =
    match nth_error fs i with Some f => Some (length (wf_bits f)) | None => None end.
  Proof. unfold widths. rewrite nth_error_map. destruct (nth_error fs i); reflexivity. Qed.

  (** the fields after the assignments *)
  Definition result_at (es : list assignment) (fs : list (wfield V)) (i : nat) : option (wfield V) :=
    match nth_error fs i, assigned es i with
    | Some f, Some b => Some (mk_wf b (deser i b (wf_val f)))
    | o, _ => o
    end.

  Lemma assigned_notin es i : ~ In i (map fst es) -> assigned es i = None.
  Proof.
    induction es as [|[j b] es IH]; cbn [assigned map fst In]; [reflexivity|]. intros H.
    destruct (Nat.eqb_spec j i); [tauto|]. apply IH. tauto.
  Qed.

  Lemma update_loop_spec isz fuel : forall es fs s fi pad,
    1 <= isz <= 64 -> (Z.of_nat (length fs) + 1 < 2 ^ Z.of_nat isz)%Z ->
    wf_bs s -> (0 <= fi < 2 ^ Z.of_nat isz)%Z -> remaining s <= fuel ->
    valid_assignments (widths fs) es -> rest s = wire isz es ++ repeat false pad ->
    exists fs', update_loop deser fuel isz s fi (Z.of_nat (position s)) fs = Some fs' /\
      length fs' = length fs /\ forall i, nth_error fs' i = result_at es fs i.
  Proof.
    induction fuel as [|f IH]; intros es fs s fi pad HI HN W HF HR [ND FA] E.
    - pose proof W as (_ & _ & HP & _). pose proof (rest_length s W) as RS. rewrite remaining_len in HR by assumption.
      cbn [update_loop].
      destruct (Z.ltb_spec (Z.of_nat (position s)) (8 * Z.of_nat (bs_len s))); [lia|].
      exists fs. split; [reflexivity|]. split; [reflexivity|]. intros i. unfold result_at.
      destruct es as [|[j b] es]; [destruct (nth_error fs i); reflexivity|].
      exfalso. rewrite remaining_len in RS by assumption. rewrite E, wire_cons, !app_length, val_bits_length in RS. lia.
    - cbn [update_loop]. pose proof (remaining_len s W) as RL. pose proof (rest_length s W) as RS.
      destruct (Z.ltb_spec (Z.of_nat (position s)) (8 * Z.of_nat (bs_len s))) as [HC|HC].
      2:{ exists fs. split; [reflexivity|]. split; [reflexivity|]. intros i. unfold result_at.
          destruct es as [|[j b] es]; [destruct (nth_error fs i); reflexivity|].
          exfalso. rewrite E, wire_cons, !app_length, val_bits_length in RS. lia. }
      rewrite read_index_spec by (try assumption; lia). set (k := Nat.min isz (remaining s)).
      set (s1 := at_pos (bs_buf s) (position s + k)).
      destruct es as [|[j b] es].
      { cbn [wire flat_map app] in E.
        assert (Z0 : bits_val (firstn k (rest s)) = 0%Z).
        { rewrite E. rewrite E, repeat_length in RS. replace pad with (k + (pad - k)) by (unfold k; lia).
          rewrite repeat_app, firstn_app_le by (rewrite repeat_length; lia).
          rewrite firstn_all2 by (rewrite repeat_length; lia). apply bits_val_repeat_false. }
        rewrite Z0. cbn [Z.eqb]. exists fs. split; [reflexivity|]. split; [reflexivity|].
        intros i. unfold result_at. destruct (nth_error fs i); reflexivity. }
      cbn [map fst] in ND. apply NoDup_cons_iff in ND. destruct ND as [NI ND'].
      apply Forall_cons_iff in FA. destruct FA as [[F1 F2] FA']. cbn [fst snd] in F1, F2.
      rewrite widths_nth in F1. destruct (nth_error fs j) as [fld|] eqn:EJ; [|discriminate]. injection F1 as F1.
      assert (HJ : j < length fs) by (apply nth_error_Some; congruence).
      rewrite wire_cons in E. rewrite <- !app_assoc in E.
      assert (LEN : remaining s = isz + length b + length (wire isz es) + pad).
      { rewrite <- RS, E, !app_length, val_bits_length, repeat_length. lia. }
      assert (K : k = isz) by (unfold k; lia).
      assert (IV : bits_val (firstn k (rest s)) = (Z.of_nat j + 1)%Z).
      { rewrite K, E, firstn_app_le by (rewrite val_bits_length; lia).
        rewrite firstn_all2 by (rewrite val_bits_length; lia). rewrite bits_val_val_bits_small by lia. reflexivity. }
      rewrite IV. destruct (Z.eqb_spec (Z.of_nat j + 1) 0); [lia|]. cbv zeta.
      replace (Z.to_nat (Z.of_nat j + 1 - 1)) with j by lia. rewrite EJ.
      assert (W1 : wf_bs s1) by (apply next_wf; [assumption|unfold k; lia]).
      assert (R1 : remaining s1 = remaining s - k) by (apply remaining_adv; assumption).
      assert (RE1 : rest s1 = b ++ wire isz es ++ repeat false pad).
      { unfold s1. rewrite rest_adv, E, K, skipn_app, skipn_all2 by (rewrite val_bits_length; lia).
        rewrite val_bits_length, Nat.sub_diag. reflexivity. }
      rewrite nextNv_spec by (try assumption; rewrite repeat_length; lia).
      rewrite repeat_length. replace (Nat.min (length (wf_bits fld)) (remaining s1)) with (length b) by lia.
      rewrite RE1, firstn_app_le by lia. rewrite firstn_all. rewrite F1, Nat.sub_diag. cbn [repeat]. rewrite app_nil_r.
      destruct (upd fs j (mk_wf b (deser j b (wf_val fld)))) as [fs1|] eqn:EU; [|apply upd_none_iff in EU; lia].
      set (s2 := at_pos (bs_buf s1) (position s1 + length b)).
      assert (W2 : wf_bs s2) by (apply next_wf; [assumption|lia]).
      assert (R2 : remaining s2 = remaining s1 - length b) by (apply remaining_adv; assumption).
      assert (P2 : (Z.of_nat (position s) + Z.of_nat k + Z.of_nat (length b))%Z = Z.of_nat (position s2)).
      { unfold s2, s1. rewrite !at_pos_position. lia. }
      rewrite P2.
      assert (LFS : length fs1 = length fs) by (eapply upd_length; eauto).
      assert (WD : widths fs1 = widths fs).
      { apply nth_error_ext. intros i. rewrite !widths_nth, (upd_nth_error _ _ _ _ EU).
        destruct (Nat.eqb_spec i j) as [->|]; [|reflexivity]. rewrite EJ. cbn [wf_bits]. congruence. }
      destruct (IH es fs1 s2 (Z.of_nat j + 1 - 1)%Z pad) as (fs' & EL & LL & HH); try assumption; try lia.
      + split; [assumption|]. rewrite WD. assumption.
      + unfold s2. rewrite rest_adv, RE1, skipn_app, skipn_all, Nat.sub_diag. reflexivity.
      + exists fs'. split; [exact EL|]. split; [congruence|]. intros i. rewrite HH. unfold result_at.
        rewrite (upd_nth_error _ _ _ _ EU). cbn [assigned]. rewrite (Nat.eqb_sym j i).
        destruct (Nat.eqb_spec i j) as [->|]; [|reflexivity].
        rewrite EJ, assigned_notin by assumption. reflexivity.
  Qed.

  (** what the consumer can be given *)
  Definition consumer_ok (st : ustate V) : Prop :=
    (Z.of_nat (length (us_fields st)) < 2 ^ 30)%Z /\
    Forall (fun f => (Z.of_nat (length (wf_bits f)) < 2 ^ 31)%Z) (us_fields st) /\
    match us_buf st with
    | Some buf => wf_bytes buf /\ us_len st <= length buf /\ (8 * Z.of_nat (us_len st) < 2 ^ 31 - 8)%Z
    | None => True
    end.

  Lemma consumer_spec st :
    consumer_ok st ->
    exists st', consumer_execute deser st = Some st' /\ us_buf st' = us_buf st /\
      (us_len st = 0 \/ us_buf st = None -> st' = st) /\
      (forall buf, us_len st <> 0 -> us_buf st = Some buf ->
         us_len st' = 0 /\
         ((exists es, packet (index_size (length (us_fields st))) (widths (us_fields st))
                             (concat (firstn (us_len st) buf)) es /\
             length (us_fields st') = length (us_fields st) /\
             forall i, nth_error (us_fields st') i = result_at es (us_fields st) i)
          \/ ((~ exists es, packet (index_size (length (us_fields st))) (widths (us_fields st))
                                   (concat (firstn (us_len st) buf)) es) /\ us_fields st' = us_fields st))).
  Proof.
    intros (HN & HW & HB). destruct st as [fs len [buf|]]; cbn [us_fields us_len us_buf] in *.
    2:{ exists (mk_us fs len None). split; [destruct len; reflexivity|]. split; [reflexivity|]. split; [reflexivity|].
        intros buf _ X. discriminate. }
    destruct HB as (WB & HL & HZ). unfold consumer_execute. cbn [us_fields us_len us_buf].
    destruct len as [|len].
    { eexists. split; [reflexivity|]. split; [reflexivity|]. split; [reflexivity|]. intros b X. congruence. }
    set (isz := index_size (length fs)). fold (widths fs). set (buf1 := firstn (S len) buf).
    pose proof (isz_bounds _ HN) as HI. fold isz in HI.
    pose proof (index_size_spec (length fs)) as (HP & _). fold isz in HP.
    assert (LW : length (widths fs) = length fs) by (unfold widths; apply map_length).
    assert (L1 : length buf1 = S len) by (unfold buf1; rewrite firstn_length; lia).
    assert (WB1 : wf_bytes buf1).
    { unfold wf_bytes in *. rewrite <- (firstn_skipn (S len) buf) in WB. apply Forall_app in WB. apply WB. }
    destruct (validate_packet_spec (widths fs) isz HI ltac:(rewrite LW; exact HP)) with (buf := buf1) as (r & EV & RV).
    { unfold widths. rewrite Forall_forall in *. intros l HIN. apply in_map_iff in HIN.
      destruct HIN as (f & <- & HIN). apply HW. assumption. }
    { assumption. }
    { rewrite L1. assumption. }
    rewrite EV. destruct r.
    - destruct (proj1 RV eq_refl) as (es & HV & pad & HPAD & EB).
      assert (W : wf_bs (bs_reset (bs_make buf1))) by (apply (wf_at_pos buf1 0); [assumption|lia|rewrite L1; assumption]).
      destruct (update_loop_spec isz (8 * bs_len (bs_make buf1)) es fs (bs_reset (bs_make buf1)) 0%Z pad) as (fs' & EU & LU & HU);
        try assumption.
      + split; [lia|apply Z.pow_pos_nonneg; lia].
      + rewrite remaining_len by assumption. unfold bs_len, position; cbn [bs_reset bs_make bs_buf bs_byte bs_bit]. lia.
      + unfold update_fields. change (Z.of_nat (position (bs_reset (bs_make buf1)))) with 0%Z in EU. rewrite EU.
        eexists. split; [reflexivity|]. split; [reflexivity|]. split; [intros [X|X]; discriminate|].
        intros b _ X. injection X as <-. split; [reflexivity|]. left. exists es. cbn [us_fields].
        split; [|split; assumption]. split; [assumption|]. exists pad. auto.
    - eexists. split; [reflexivity|]. split; [reflexivity|]. split; [intros [X|X]; discriminate|].
      intros b _ X. injection X as <-. split; [reflexivity|]. right. split; [|reflexivity].
      intros X. apply RV in X. discriminate.
  Qed.
End Update.

(** ** the ground producer *)
Definition sumf (f : nat -> nat) (l : list nat) : nat := fold_right (fun x acc => f x + acc) 0 l.

Lemma sumf_app f a b : sumf f (a ++ b) = sumf f a + sumf f b.
Proof. induction a as [|x a IH]; cbn [app sumf fold_right]; [reflexivity|]. fold (sumf f (a ++ b)) (sumf f a). lia. Qed.

Lemma sumf_incl f l : forall m, NoDup l -> incl l m -> sumf f l <= sumf f m.
Proof.
  induction l as [|x l IH]; intros m ND HI; [cbn; lia|]. apply NoDup_cons_iff in ND. destruct ND as [NI ND].
  assert (HX : In x m) by (apply HI; left; reflexivity). apply in_split in HX. destruct HX as (m1 & m2 & ->).
  assert (H : sumf f l <= sumf f (m1 ++ m2)).
  { apply IH; [assumption|]. intros y Hy. assert (Hm : In y (m1 ++ x :: m2)) by (apply HI; right; assumption).
    apply in_app_iff in Hm. apply in_app_iff. destruct Hm as [Hm|[Hm|Hm]]; [auto| |auto].
    subst y. contradiction. }
  rewrite sumf_app in *. change (sumf f (x :: l)) with (f x + sumf f l).
  change (sumf f (x :: m2)) with (f x + sumf f m2). lia.
Qed.

Lemma max_packet_sumf isz lens : max_packet isz lens = sumf (fun i => isz + get_field_length lens i) (seq 0 (length lens)).
Proof.
  assert (G : forall pre l, sumf (fun i => isz + get_field_length (pre ++ l) i) (seq (length pre) (length l)) = max_packet isz l).
  { intros pre l. revert pre. induction l as [|x l IH]; intros pre; [reflexivity|].
    cbn [length seq sumf fold_right max_packet]. fold (max_packet isz l).
    replace (get_field_length (pre ++ x :: l) (length pre)) with x.
    2:{ unfold get_field_length. rewrite nth_error_app2, Nat.sub_diag by lia. reflexivity. }
    specialize (IH (pre ++ [x])). rewrite <- app_assoc in IH. cbn [app] in IH.
    rewrite app_length in IH. cbn [length] in IH. replace (length pre + 1) with (S (length pre)) in IH by lia.
    unfold sumf in IH. rewrite IH. lia. }
  symmetry. apply (G [] lens).
Qed.

Lemma wire_length isz lens es :
  Forall (fun e : assignment => nth_error lens (fst e) = Some (length (snd e)) /\ snd e <> []) es ->
  length (wire isz es) = sumf (fun i => isz + get_field_length lens i) (map fst es).
Proof.
  induction 1 as [|[i b] es (F1 & F2) FA IH]; [reflexivity|]. rewrite wire_cons, !app_length, val_bits_length, IH.
  cbn [fst snd] in *. cbn [map fst sumf fold_right]. unfold get_field_length at 2. rewrite F1. unfold sumf. lia.
Qed.

Lemma wire_fits isz lens es :
  valid_assignments lens es -> length (wire isz es) <= max_packet isz lens.
Proof.
  intros [ND FA]. rewrite (wire_length isz lens) by assumption. rewrite max_packet_sumf. apply sumf_incl; [assumption|].
  intros i HI. apply in_map_iff in HI. destruct HI as ([j b] & <- & HI). rewrite Forall_forall in FA.
  destruct (FA _ HI) as [F1 _]. cbn [fst] in *. apply in_seq.
  assert (j < length lens) by (apply nth_error_Some; congruence). lia.
Qed.

Lemma wire_app isz a b : wire isz (a ++ b) = wire isz a ++ wire isz b.
Proof. unfold wire. apply flat_map_app. Qed.

(** assignments with the junk bits the temporary stream picks up *)
Definition strip (es : list (nat * list bool * list bool)) : list assignment := map fst es.
Definition junk_ok (es : list (nat * list bool * list bool)) : Prop :=
  Forall (fun e => (length (snd (fst e)) + length (snd e)) mod 8 = 0 /\
                   (8 * Z.of_nat (length (snd (fst e)) + length (snd e)) < 2 ^ 31 - 8)%Z) es.

Lemma add_entry_spec isz lens s i b junk n done pad :
  1 <= isz <= 64 -> (Z.of_nat (length lens) + 1 < 2 ^ Z.of_nat isz)%Z ->
  wf_bs s -> bs_len s = n -> nth_error lens i = Some (length b) -> b <> [] ->
  (length b + length junk) mod 8 = 0 -> (8 * Z.of_nat (length b + length junk) < 2 ^ 31 - 8)%Z ->
  all_bits s = done ++ repeat false pad -> position s = length done -> isz + length b <= pad ->
  exists s', add_entry isz lens s b junk i = Some (POk s') /\ wf_bs s' /\ bs_len s' = n /\
    all_bits s' = (done ++ val_bits isz (Z.of_nat i + 1) ++ b) ++ repeat false (pad - isz - length b) /\
    position s' = length done + isz + length b.
Proof.
  intros HI HN W HL F1 F2 J1 J2 E P HP. unfold add_entry.
  replace (get_field_length lens i) with (length b) by (unfold get_field_length; rewrite F1; reflexivity).
  destruct (Nat.eqb_spec (length b) 0); [destruct b; [congruence|discriminate]|].
  assert (RM : remaining s = pad).
  { unfold remaining. rewrite E, app_length, repeat_length, P. lia. }
  pose proof W as (WB & HBIT & HPOS & HZ).
  destruct (editN_fits s isz (bytes64 (Z.of_nat i + 1)) W (bytes64_wf _)) as (b1 & E1 & W1 & L1 & C1);
    [change (length (bytes64 (Z.of_nat i + 1))) with 8; lia|lia|].
  rewrite E1. rewrite concat_bytes64, firstn_val_bits in C1 by lia.
  destruct (bs_of_bits_spec (b ++ junk)) as (tmp & ET & WT & AT & PT); [rewrite app_length; assumption|].
  rewrite ET.
  assert (LT : length (all_bits tmp) = 8 * bs_len tmp) by (unfold all_bits, bs_len; apply concat_length; assumption).
  assert (WTMP : wf_bs tmp).
  { assert (TB : bs_byte tmp = 0 /\ bs_bit tmp = 0) by (unfold position in PT; lia).
    split; [assumption|]. split; [lia|]. split; [lia|]. rewrite AT, app_length in LT. lia. }
  set (s1 := at_pos b1 (position s + isz)) in *.
  pose proof (remaining_len s W) as RL. unfold bs_len in *.
  assert (WS1 : wf_bs s1) by (apply wf_at_pos; try assumption; rewrite L1; lia).
  assert (A1 : all_bits s1 = (done ++ val_bits isz (Z.of_nat i + 1)) ++ repeat false (pad - isz)).
  { unfold all_bits, s1. rewrite at_pos_buf, C1, E, P.
    replace pad with (isz + (pad - isz)) at 1 by lia. rewrite repeat_app.
    rewrite overwrite_middle by (rewrite val_bits_length, repeat_length; reflexivity).
    rewrite <- app_assoc. reflexivity. }
  assert (P1 : position s1 = length done + isz) by (unfold s1; rewrite at_pos_position; lia).
  assert (RM1 : remaining s1 = pad - isz).
  { unfold remaining. rewrite A1, !app_length, repeat_length, val_bits_length, P1. lia. }
  assert (RT : rest tmp = b ++ junk) by (unfold rest; rewrite PT, AT; reflexivity).
  destruct (editN_bs_fits s1 (length b) tmp WS1 WTMP) as (b2 & E2 & W2 & L2 & C2).
  { lia. }
  { rewrite <- rest_length by assumption. rewrite RT, app_length. lia. }
  rewrite E2. eexists. split; [reflexivity|].
  assert (LB1 : length (bs_buf s1) = length b1) by reflexivity.
  split. { apply wf_at_pos; try assumption; rewrite L2, LB1, L1; [rewrite P1|]; lia. }
  split. { rewrite at_pos_buf. congruence. }
  split; [|rewrite at_pos_position; lia].
  unfold all_bits at 1. rewrite at_pos_buf, C2, A1, RT, firstn_app_le, firstn_all by lia.
  rewrite P1. replace (pad - isz) with (length b + (pad - isz - length b)) at 1 by lia. rewrite repeat_app.
  replace (length done + isz) with (length (done ++ val_bits isz (Z.of_nat i + 1))) by (rewrite app_length, val_bits_length; reflexivity).
  rewrite overwrite_middle by (rewrite repeat_length; reflexivity).
  rewrite <- !app_assoc. reflexivity.
Qed.

Lemma add_entries_spec isz lens n es : forall s done pad,
  1 <= isz <= 64 -> (Z.of_nat (length lens) + 1 < 2 ^ Z.of_nat isz)%Z ->
  wf_bs s -> bs_len s = n ->
  Forall (fun e : assignment => nth_error lens (fst e) = Some (length (snd e)) /\ snd e <> []) (strip es) ->
  junk_ok es ->
  all_bits s = done ++ repeat false pad -> position s = length done -> length (wire isz (strip es)) <= pad ->
  exists s', add_entries isz lens s es = Some (POk s') /\ wf_bs s' /\ bs_len s' = n /\
    all_bits s' = (done ++ wire isz (strip es)) ++ repeat false (pad - length (wire isz (strip es))) /\
    position s' = length done + length (wire isz (strip es)).
Proof.
  induction es as [|[[i b] junk] es IH]; intros s done pad HI HN W HL FA FJ E P HP.
  - exists s. cbn [add_entries strip map wire flat_map length]. rewrite app_nil_r, Nat.sub_0_r, Nat.add_0_r. auto.
  - cbn [strip map fst] in *. fold (strip es) in *.
    apply Forall_cons_iff in FA. destruct FA as [[F1 F2] FA]. cbn [fst snd] in F1, F2.
    apply Forall_cons_iff in FJ. destruct FJ as [[J1 J2] FJ]. cbn [fst snd] in J1, J2.
    rewrite wire_cons, !app_length, val_bits_length in HP.
    cbn [add_entries].
    assert (HNX : has_next s = true).
    { apply has_next_iff; [assumption|]. unfold remaining. rewrite E, app_length, repeat_length, P. lia. }
    rewrite HNX.
    destruct (add_entry_spec isz lens s i b junk n done pad) as (s1 & E1 & W1 & L1 & A1 & P1); try assumption; [lia|].
    rewrite E1.
    destruct (IH s1 (done ++ val_bits isz (Z.of_nat i + 1) ++ b) (pad - isz - length b)) as (s2 & E2 & W2 & L2 & A2 & P2);
      try assumption.
    + rewrite P1, !app_length, val_bits_length. lia.
    + lia.
    + exists s2. split; [exact E2|]. split; [assumption|]. split; [assumption|].
      rewrite wire_cons, !app_length, val_bits_length. split.
      * rewrite A2, <- !app_assoc. do 4 f_equal. f_equal. lia.
      * rewrite P2, !app_length, val_bits_length. lia.
Qed.

Lemma concat_firstn (l : list byte) n : wf_bytes l -> concat (firstn n l) = firstn (8 * n) (concat l).
Proof.
  intros W. revert n; induction W as [|b l Hb W IH]; intros n.
  - rewrite !firstn_nil. reflexivity.
  - destruct n as [|n]; [rewrite Nat.mul_0_r; reflexivity|]. cbn [firstn concat]. rewrite IH.
    replace (8 * S n) with (length b + 8 * n) by lia. rewrite firstn_app_2. reflexivity.
Qed.

Lemma create_packet_spec lens es :
  (Z.of_nat (length lens) < 2 ^ 30)%Z ->
  Forall (fun l => (Z.of_nat l < 2 ^ 31)%Z) lens ->
  (8 * Z.of_nat (max_packet (index_size (length lens)) lens) < 2 ^ 31 - 8)%Z ->
  valid_assignments lens (strip es) -> junk_ok es ->
  exists msg, create_packet lens es = Some (Some msg) /\ wf_bytes msg /\
    length msg <= max_packet (index_size (length lens)) lens /\
    (es <> [] -> msg <> []) /\
    packet (index_size (length lens)) lens (concat msg) (strip es) /\
    exists pad, pad < 8 /\ concat msg = wire (index_size (length lens)) (strip es) ++ repeat false pad.
Proof.
  intros HN HW HM HV HJ. set (isz := index_size (length lens)) in *.
  pose proof (isz_bounds _ HN) as HI. fold isz in HI.
  pose proof (index_size_spec (length lens)) as (HP & _). fold isz in HP.
  unfold create_packet. fold isz. set (m := max_packet isz lens) in *.
  assert (WZ : wf_bytes (repeat zero_byte m)).
  { unfold wf_bytes. apply Forall_forall. intros x Hx. apply repeat_spec in Hx. subst. reflexivity. }
  assert (W0 : wf_bs (bs_make (repeat zero_byte m))).
  { apply (wf_at_pos _ 0); [assumption|lia|rewrite repeat_length; assumption]. }
  assert (AZ : concat (repeat zero_byte m) = repeat false (8 * m)).
  { clear. induction m as [|m IH]; [reflexivity|]. cbn [repeat concat]. rewrite IH.
    replace (8 * S m) with (8 + 8 * m) by lia. rewrite repeat_app. reflexivity. }
  pose proof (wire_fits isz lens (strip es) HV) as FIT. fold m in FIT.
  destruct (add_entries_spec isz lens m es (bs_make (repeat zero_byte m)) [] (8 * m)) as (s & ES & WS & LS & AS & PS);
    try assumption; try reflexivity.
  { unfold bs_len. cbn [bs_make bs_buf]. apply repeat_length. }
  { apply HV. }
  { lia. }
  rewrite ES. cbn [length Nat.add] in PS. cbn [app] in AS.
  set (w := length (wire isz (strip es))) in *.
  replace ((bs_byte s * 8 + bs_bit s + 7) / 8) with ((w + 7) / 8) by (unfold position in PS; f_equal; lia).
  set (q := (w + 7) / 8). pose proof WS as (WB & _ & _ & _).
  assert (WM : wf_bytes (firstn q (bs_buf s))).
  { unfold wf_bytes in *. rewrite <- (firstn_skipn q (bs_buf s)) in WB. apply Forall_app in WB. apply WB. }
  assert (LQ : length (firstn q (bs_buf s)) = q).
  { rewrite firstn_length. unfold bs_len in LS. unfold q. lia. }
  assert (CM : concat (firstn q (bs_buf s)) = wire isz (strip es) ++ repeat false (8 * q - w)).
  { rewrite concat_firstn by assumption. fold (all_bits s). rewrite AS.
    rewrite firstn_app_ge by (fold w; unfold q; lia). fold w. f_equal.
    replace (8 * m - w) with ((8 * q - w) + (8 * m - 8 * q)) by (unfold q; lia). rewrite repeat_app.
    rewrite firstn_app_le by (rewrite repeat_length; lia). apply firstn_all2. rewrite repeat_length. lia. }
  assert (PK : packet isz lens (concat (firstn q (bs_buf s))) (strip es)).
  { split; [assumption|]. exists (8 * q - w). split; [unfold q; lia|exact CM]. }
  destruct (validate_packet_spec lens isz HI HP HW (firstn q (bs_buf s)) WM) as (r & EV & RV).
  { rewrite LQ. unfold q. lia. }
  rewrite EV. replace r with true by (symmetry; apply RV; exists (strip es); exact PK).
  eexists. split; [reflexivity|]. split; [assumption|]. split; [rewrite LQ; unfold q; lia|].
  split; [|split; [exact PK|exists (8 * q - w); split; [unfold q; lia|exact CM]]].
  intros NE X. apply (f_equal (@length byte)) in X. rewrite LQ in X. change (length (@nil byte)) with 0 in X.
  destruct es as [|[[i b] j] es]; [congruence|]. unfold q, w in X. cbn [strip map fst] in X.
  rewrite wire_cons, !app_length, val_bits_length in X. lia.
Qed.
