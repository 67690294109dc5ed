(** Proofs about messages from the flight computer arriving in the registers. *)
From Verif Require Import Base AdcsModel AdcsSpec AdcsConvProofs.
From Coq Require Import QArith Qabs Lqa.
Local Open Scope Z_scope.

Lemma le16_len t : length (le16 t) = 2%nat.
Proof. reflexivity. Qed.

Lemma tx16_inv f mn mx l : tx16 f mn mx = Some l -> exists t, us f mn mx = Some t /\ l = le16 t.
Proof. unfold tx16. destruct (us f mn mx) as [t|]; simpl; [|discriminate]. intros X; injection X as <-. eauto. Qed.

Lemma tx3_inv v mn mx l : tx3 v mn mx = Some l ->
  exists a b c, us (vx v) mn mx = Some a /\ us (vy v) mn mx = Some b /\ us (vz v) mn mx = Some c /\ l = le16 a ++ le16 b ++ le16 c.
Proof.
  unfold tx3. destruct (tx16 (vx v) mn mx) as [la|] eqn:A; cbn [obind]; [|discriminate].
  destruct (tx16 (vy v) mn mx) as [lb|] eqn:B; cbn [obind]; [|discriminate].
  destruct (tx16 (vz v) mn mx) as [lc|] eqn:C; cbn [obind]; [|discriminate].
  intros X; injection X as <-.
  apply tx16_inv in A, B, C. destruct A as [a [A ->]], B as [b [B ->]], C as [c [C ->]]. exists a, b, c. auto.
Qed.

Lemma rd16x3_enc z a b c l : 0 <= a -> 0 <= b -> 0 <= c -> rd16x3 z (le16 a ++ le16 b ++ le16 c ++ l) = ((a, b, c), l).
Proof. intros Ha Hb Hc. unfold rd16x3. rewrite !rd16_le16 by assumption. reflexivity. Qed.

Lemma rd16x3_enc0 z a b c : 0 <= a -> 0 <= b -> 0 <= c -> rd16x3 z (le16 a ++ le16 b ++ le16 c) = ((a, b, c), []).
Proof. intros. rewrite <- (app_nil_r (le16 c)). apply rd16x3_enc; assumption. Qed.

(** The three six-byte payloads leave nothing behind. *)
Lemma payload_len a b c : length (le16 a ++ le16 b ++ le16 c) = 6%nat.
Proof. reflexivity. Qed.

Lemma enc8_inv f mn mx a ms : enc8 f mn mx a = Some ms -> exists t, uc f mn mx = Some t /\ ms = [[a; t]].
Proof. unfold enc8. destruct (uc f mn mx) as [t|]; simpl; [|discriminate]. intros X; injection X as <-. eauto. Qed.

Lemma rx_rwa_cmd_frame z l r n : ~ In n [NWMode; NWCmd; NWFlag] -> same_reg n r (rx_rwa_cmd z l r).
Proof.
  intros H. unfold rx_rwa_cmd. destruct (length l <? 6)%nat; [destruct n; reflexivity|].
  destruct (rd16x3 z l) as [t l']. destruct (_ =? 2); [|destruct (_ =? 1)]; destruct n; simpl in *; try reflexivity; exfalso; tauto.
Qed.

Lemma same_reg_trans n r1 r2 r3 : same_reg n r1 r2 -> same_reg n r2 r3 -> same_reg n r1 r3.
Proof. destruct n; simpl; congruence. Qed.

Ltac frame1 := intros Hn; destruct Hn; subst; match goal with |- same_reg ?n _ _ => destruct n; simpl; try reflexivity end.

(** A driver call writes the registers it names and no other. *)
Theorem driver_frame c ms z r n :
  dmsgs c = Some ms -> ~ In n (names c) -> same_reg n r (recv_all z ms r).
Proof.
  intros E Hn. destruct c; simpl in E;
    try (injection E as <-; unfold recv_all; simpl; destruct n; simpl in *; try reflexivity; exfalso; tauto);
    try (apply enc8_inv in E; destruct E as [t [_ ->]]; unfold recv_all; simpl; destruct n; simpl in *; try reflexivity; exfalso; tauto).
  - (* wheels *)
    destruct (if m =? 1 then _ else _) as [l|] eqn:L; simpl in E; [|discriminate]. injection E as <-.
    unfold recv_all; simpl fold_left.
    apply (same_reg_trans n r (recv z [3; m] r)).
    + unfold recv; simpl. destruct n; simpl in *; try reflexivity; exfalso; tauto.
    + change (recv z (4 :: l) (recv z [3; m] r)) with (rx_rwa_cmd z l (recv z [3; m] r)). apply rx_rwa_cmd_frame. exact Hn.
  - (* rods *)
    destruct (enc3 v _ _) as [l|] eqn:L; simpl in E; [|discriminate]. injection E as <-.
    apply tx3_inv in L. destruct L as [a [b [c [A [B [C ->]]]]]].
    apply us_range in A, B, C.
    change (recv_all z [11 :: ?l] r) with (rx_mtr_cmd z l r). unfold rx_mtr_cmd.
    rewrite payload_len. change (6 <? 6)%nat with false. cbv iota.
    rewrite rd16x3_enc0 by lia. destruct n; simpl in *; try reflexivity; exfalso; tauto.
  - (* limit *)
    destruct (tx16 f _ _) as [l|] eqn:L; simpl in E; [|discriminate]. injection E as <-.
    apply tx16_inv in L. destruct L as [t [A ->]].
    unfold recv_all; simpl. destruct n; simpl in *; try reflexivity; exfalso; tauto.
  - (* sun sensors *)
    injection E as <-. unfold recv_all; simpl. destruct ((s_mode (r_ssa r) =? 2) || (s_mode (r_ssa r) =? 0));
      destruct n; simpl in *; try reflexivity; exfalso; tauto.
Qed.

(** ** What arrives *)

Lemma max_moment_pos : (- max_moment < max_moment)%Q. Proof. reflexivity. Qed.
Lemma max_torque_pos : (- max_torque < max_torque)%Q. Proof. reflexivity. Qed.
Lemma max_speed_pos : (- max_speed_command < max_speed_command)%Q. Proof. reflexivity. Qed.

Lemma tx3_some v mn mx : (mn < mx)%Q -> in_range3 mn mx v ->
  exists a b c, tx3 v mn mx = Some (le16 a ++ le16 b ++ le16 c) /\ 0 <= a <= 65535 /\ 0 <= b <= 65535 /\ 0 <= c <= 65535 /\
    within_step3 65535 mn mx v (fp3 (a, b, c) mn mx).
Proof.
  intros Hm [Hx [Hy Hz]].
  destruct (us_some (vx v) mn mx Hm Hx) as [a [A [A1 A2]]].
  destruct (us_some (vy v) mn mx Hm Hy) as [b [B [B1 B2]]].
  destruct (us_some (vz v) mn mx Hm Hz) as [c [C [C1 C2]]].
  exists a, b, c. split; [|split; [exact A1|split; [exact B1|split; [exact C1|]]]].
  - unfold tx3, tx16. rewrite A, B, C. reflexivity.
  - unfold within_step3, within_step. simpl. split; [exact A2|split; [exact B2|exact C2]].
Qed.

Theorem rod_command_arrives v z r :
  in_range3 (- max_moment) max_moment v ->
  exists ms, dmsgs (SetMtrCmd v) = Some ms /\
    within_step3 65535 (- max_moment) max_moment v (m_cmd (r_mtr (recv_all z ms r))) /\ m_flg (r_mtr (recv_all z ms r)) = true.
Proof.
  intros H. destruct (tx3_some v _ _ max_moment_pos H) as [a [b [c [E [Ha [Hb [Hc S]]]]]]].
  exists [11 :: le16 a ++ le16 b ++ le16 c]. split.
  - simpl. unfold enc3. rewrite E. reflexivity.
  - change (recv_all z [11 :: ?l] r) with (rx_mtr_cmd z l r). unfold rx_mtr_cmd.
    rewrite payload_len. change (6 <? 6)%nat with false. cbv iota.
    rewrite rd16x3_enc0 by lia. split; [exact S|reflexivity].
Qed.

Lemma rx_lim_enc z t r : 0 <= t -> rx_mtr_lim z (le16 t) r = set_mtr r (mt_lim (r_mtr r) (fp16 t (- max_moment) max_moment)).
Proof. intros H. unfold rx_mtr_lim, le16, rd16, rd. replace (t mod 256 + 256 * (t / 256)) with t by lia. reflexivity. Qed.

Theorem rod_limit_arrives f z r :
  in_range (- max_moment) max_moment f ->
  exists ms, dmsgs (SetMtrLim f) = Some ms /\
    within_step 65535 (- max_moment) max_moment f (m_lim (r_mtr (recv_all z ms r))) /\ m_flg (r_mtr (recv_all z ms r)) = true.
Proof.
  intros H. destruct (us_some f _ _ max_moment_pos H) as [t [E [Ht S]]].
  exists [12 :: le16 t]. split.
  - simpl. unfold tx16. rewrite E. reflexivity.
  - change (recv_all z [12 :: le16 t] r) with (rx_mtr_lim z (le16 t) r). rewrite rx_lim_enc by lia. split; [exact S|reflexivity].
Qed.

Theorem wheel_command_arrives m v z r :
  let mx := if m =? 1 then max_speed_command else max_torque in
  m = 1 \/ m = 2 -> in_range3 (- mx) mx v ->
  exists ms, dmsgs (SetRwa m v) = Some ms /\
    within_step3 65535 (- mx) mx v (w_cmd (r_rwa (recv_all z ms r))) /\ w_mode (r_rwa (recv_all z ms r)) = m /\
    w_flg (r_rwa (recv_all z ms r)) = true.
Proof.
  intros mx Hm H.
  assert (P : (- mx < mx)%Q) by (unfold mx; destruct (m =? 1); reflexivity).
  destruct (tx3_some v _ _ P H) as [a [b [c [E [Ha [Hb [Hc S]]]]]]].
  exists [[3; m]; 4 :: le16 a ++ le16 b ++ le16 c]. split.
  - unfold dmsgs, enc3. destruct Hm as [-> | ->]; simpl in mx; unfold mx in E; simpl; rewrite E; reflexivity.
  - change (recv_all z [[3; m]; 4 :: ?l] r) with (rx_rwa_cmd z l (recv z [3; m] r)). unfold rx_rwa_cmd.
    rewrite payload_len. change (6 <? 6)%nat with false. cbv iota. rewrite rd16x3_enc0 by lia.
    destruct Hm as [-> | ->]; simpl in mx; unfold mx in S; simpl; (split; [exact S|split; reflexivity]).
Qed.

(** the five filter constants, the target temperature and the plain bytes *)
Theorem byte_commands_arrive f z r :
  in_range 0 1 f ->
  exists t, 0 <= t <= 255 /\ within_step 255 0 1 f (fp8 t 0 1) /\
    dmsgs (SetSFlt f) = Some [[6; t]] /\ w_sflt (r_rwa (recv z [6; t] r)) = fp8 t 0 1 /\
    dmsgs (SetRFlt f) = Some [[7; t]] /\ w_rflt (r_rwa (recv z [7; t] r)) = fp8 t 0 1 /\
    dmsgs (SetSsaFlt f) = Some [[16; t]] /\ s_flt (r_ssa (recv z [16; t] r)) = fp8 t 0 1 /\
    dmsgs (SetMFlt f) = Some [[22; t]] /\ i_mflt (r_imu (recv z [22; t] r)) = fp8 t 0 1 /\
    dmsgs (SetGFlt f) = Some [[23; t]] /\ i_gflt (r_imu (recv z [23; t] r)) = fp8 t 0 1 /\
    dmsgs (SetTFlt f) = Some [[24; t]] /\ i_tflt (r_imu (recv z [24; t] r)) = fp8 t 0 1.
Proof.
  intros H. destruct (uc_some f 0 1 ltac:(reflexivity) H) as [t [E [Ht S]]]. exists t.
  split; [exact Ht|]. split; [exact S|]. unfold dmsgs, enc8. rewrite E. repeat split; reflexivity.
Qed.

Theorem target_arrives f z r :
  in_range (-40) 85 f ->
  exists ms, dmsgs (SetDes f) = Some ms /\ within_step 255 (-40) 85 f (i_des (r_imu (recv_all z ms r))).
Proof.
  intros H. destruct (uc_some f (-40) 85 ltac:(reflexivity) H) as [t [E [Ht S]]].
  exists [[26; t]]. split; [unfold dmsgs, enc8; rewrite E; reflexivity|exact S].
Qed.

Theorem tables_arrive t z r :
  0 <= t < 2 ^ 32 ->
  (exists ms, dmsgs (SetReset t) = Some ms /\ h_rst (r_hav (recv_all z ms r)) = t /\ h_rflg (r_hav (recv_all z ms r)) = true) /\
  (exists ms, dmsgs (SetDisable t) = Some ms /\ h_dis (r_hav (recv_all z ms r)) = t /\ h_dflg (r_hav (recv_all z ms r)) = true).
Proof.
  intros H. split.
  - exists [28 :: le32 t]. split; [reflexivity|]. change (recv_all z [28 :: le32 t] r) with (set_hav r (ha_rst (r_hav r) (fst (rd32 z (le32 t))) true)).
    rewrite <- (app_nil_r (le32 t)), rd32_le32 by exact H. split; reflexivity.
  - exists [29 :: le32 t]. split; [reflexivity|]. change (recv_all z [29 :: le32 t] r) with (set_hav r (ha_dis (r_hav r) (fst (rd32 z (le32 t))) true)).
    rewrite <- (app_nil_r (le32 t)), rd32_le32 by exact H. split; reflexivity.
Qed.
