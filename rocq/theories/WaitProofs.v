From Verif Require Import Base EEPROMModel EEPROMProofs FaultModel FaultHandlerModel MissionModel MissionProofs MissionWitness SavedProofs KillProofs WaitModel.
From Coq Require Import List.
Open Scope Z_scope.

Lemma begun_snoc l k : cycles_begun (l ++ [k]) = cycles_begun l + Z.of_nat k + 1.
Proof. unfold cycles_begun. induction l as [|x l IH]; cbn [app fold_right]; [lia|]. rewrite IH. lia. Qed.
Lemma begun_pos l : 0 <= cycles_begun l.
Proof. unfold cycles_begun. induction l as [|x l IH]; cbn [fold_right]; lia. Qed.

(** a boot that only waits *)
Lemma waiting_rows w0 rows v0 : waiting w0 rows -> wmission w0 = m_startup -> wcc w0 = 0 -> mm_elapsed (wm w0) = v0 -> 0 <= v0 <= 106 ->
  Z.of_nat (length rows) <= 100 * (106 - v0) /\ forall c i row, 1 <= c -> i = 7%nat -> nth_error rows (Z.to_nat (c - 1)) = Some row ->
    nth_error row i = Some (v0 + c / 100).
Proof.
  intros W S C E B.
  assert (L : Z.of_nat (length rows) <= 100 * (106 - v0)).
  { destruct (Z_le_gt_dec (Z.of_nat (length rows)) (100 * (106 - v0))) as [L|G]; [exact L|exfalso].
    destruct (nth_error rows (Z.to_nat (100 * (106 - v0)))) as [row|] eqn:N; [|apply nth_error_None in N; clear - N G B; lia].
    destruct (W _ _ N) as (l & w & LL & F & H & M & _).
    destruct (deployment_history l w0 w H F S C v0 E B) as [_ D]. apply D; [|exact M]. rewrite LL. clear - B. lia. }
  split; [exact L|]. intros c i row C1 -> N. destruct (W _ _ N) as (l & w & LL & F & H & M & R).
  destruct (deployment_history l w0 w H F S C v0 E B) as [D _].
  assert (LC : Z.of_nat (length l) = c) by (rewrite LL; clear - C1; lia). rewrite LC in D.
  assert (NB : (Z.to_nat (c - 1) < length rows)%nat) by (apply nth_error_Some; rewrite N; discriminate).
  destruct (D ltac:(clear - NB L C1; lia)) as (_ & D2 & _). rewrite R, D2. reflexivity.
Qed.

Section Nine.
Variable fs : list pfield.
Hypothesis table_ok : Forall (fun f => 0 < pf_period f /\ one_byte (pf_ty f) = true /\ (pf_state f = true -> pf_ty f = EUChar)) fs /\
  Forall (fun f => 0 < pf_period f) fs /\ length fs = 9%nat.
Hypothesis table_at : forall i, nth_error fs i = nth_error nine i.

Definition held (e : list Z) (t : Z) : Prop := bytes e /\ Z.of_nat (length e) = 4096 /\
  exists v, nth_error e 35 = Some v /\ 0 <= v <= 106 /\ 100 * v <= t.

Lemma held_read e t defaults : held e t -> length defaults = 9%nat ->
  exists r v, eeprom_init fs defaults e = Some r /\ nth_error r 7 = Some v /\ nth_error e 35 = Some v /\ 0 <= v <= 106 /\ 100 * v <= t.
Proof.
  intros (B & L & v & E & R & T) HD. destruct table_ok as (_ & _ & TL).
  assert (CE : check_empty e = false) by (refine (not_empty e 35 v E _); clear - R; lia).
  destruct (read_spec fs 0 defaults e) as (r & RD & _ & N); [rewrite TL; clear - L; cbn; lia|rewrite TL; exact HD|].
  assert (D7 : exists d7, nth_error defaults 7 = Some d7).
  { destruct (nth_error defaults 7) eqn:Y; [eexists; reflexivity|]. apply nth_error_None in Y. clear - Y HD. lia. }
  destruct D7 as [d7 D7]. exists r, v. split; [unfold eeprom_init; rewrite TL, CE; exact RD|]. split; [|split; [exact E|split; [exact R|exact T]]].
  rewrite (N 7%nat (mk_pf false EUChar 1) d7 v); [|rewrite table_at; reflexivity|exact D7|exact E].
  cbn [pf_state andb pf_ty set_from_eeprom]. f_equal. apply (byte_self fs table_ok). clear - R. lia.
Qed.

(** one boot *)
Lemma boot_held e t v0 w0 hist vals j e2 : bytes e -> Z.of_nat (length e) = 4096 -> 0 <= v0 <= 106 -> 100 * v0 <= t ->
  nth_error e 35 = Some v0 \/ hist <> [] ->
  mm_elapsed (wm w0) = v0 -> wmission w0 = m_startup -> wcc w0 = 0 ->
  Forall (fun row => length row = 9%nat) (hist ++ [vals]) -> waiting w0 (hist ++ [vals]) -> eeprom_crash fs hist vals j e = Some e2 ->
  held e2 (t + Z.of_nat (length hist) + 1).
Proof.
  intros B L R T ST E S C HR W X.
  destruct (waiting_rows w0 _ v0 W S C E R) as [LB ROW]. rewrite app_length in LB. cbn [length] in LB.
  destruct (cell_after fs table_ok hist vals j e B L HR) as (e' & X' & L' & B' & CELL). rewrite X in X'. injection X' as <-.
  split; [exact B'|]. split; [rewrite L'; exact L|].
  pose proof (CELL 7%nat (mk_pf false EUChar 1) ltac:(rewrite table_at; reflexivity)) as C7. cbv zeta in C7. cbn [pf_period pf_ty] in C7.
  change (7 * 5)%nat with 35%nat in C7. unfold last_save in C7. rewrite Z.div_1_r, Z.mul_1_r in C7 || rewrite Z.div_1_r, Z.mul_1_l in C7.
  set (c := Z.of_nat (length hist) + (if Nat.ltb 7 j then 1 else 0)) in C7.
  assert (CB : 0 <= c <= Z.of_nat (length hist) + 1) by (unfold c; clear; destruct (Nat.ltb 7 j); lia).
  assert (CH : hist <> [] -> c <> 0) by (unfold c; clear; intros H; destruct hist; [exfalso; apply H; reflexivity|cbn [length]; destruct (Nat.ltb 7 j); lia]).
  destruct (Z.eqb_spec c 0) as [C0|CN].
  - exists v0. destruct ST as [ST|ST]; [|exfalso; exact (CH ST C0)]. rewrite C7. split; [exact ST|]. split; [exact R|]. clear - T. lia.
  - destruct C7 as (v & V & CV). unfold value_at in V. destruct (nth_error (hist ++ [vals]) (Z.to_nat (c - 1))) as [row|] eqn:N; [|discriminate].
    rewrite (ROW c 7%nat row ltac:(clear - CB CN; lia) eq_refl N) in V. injection V as <-.
    assert (Q : 0 <= v0 + c / 100 <= 106 /\ 100 * (v0 + c / 100) <= t + Z.of_nat (length hist) + 1).
    { clear - LB CB R T. pose proof (Z.div_mod c 100 ltac:(lia)). pose proof (Z.mod_pos_bound c 100 ltac:(lia)). lia. }
    exists (v0 + c / 100). cbn [eeprom_repr] in CV. rewrite (u8_u8 fs table_ok), u8_id in CV by (change (2 ^ 8) with 256; clear - Q; lia). split; [exact CV|exact Q].
Qed.

Lemma boots_held defaults l e' : length defaults = 9%nat -> nth_error defaults 7 = Some 0 ->
  wait_boots fs defaults (repeat 255 (Z.to_nat 4096)) l e' -> nth_error l 0 <> Some 0%nat -> l <> [] -> held e' (cycles_begun l).
Proof.
  intros HD H0 H. remember (repeat 255 (Z.to_nat 4096)) as e eqn:HE. destruct table_ok as (_ & _ & TL).
  assert (HB : bytes e) by (subst; apply Forall_forall; intros x I; apply repeat_spec in I; lia).
  assert (HL : Z.of_nat (length e) = 4096) by (subst; rewrite repeat_length; lia).
  assert (HC : check_empty e = true) by (subst; vm_compute; reflexivity). clear HE.
  induction H as [e|e l e1 r w0 hist vals j e2 H IH H1 H2 H3 H4 H5 H6 H7]; intros G N; [exfalso; apply N; reflexivity|].
  rewrite begun_snoc. rewrite TL in H5. destruct l as [|k l].
  - inversion H as [|? l' ? ? ? ? ? ? ? ? ? ? ? ? ? ? ? E1 E2 E3]; subst; [|destruct l'; discriminate].
    unfold eeprom_init in H1. rewrite TL, HC in H1. change (Z.of_nat 9 <=? 4096 / 5) with true in H1. cbv iota in H1. injection H1 as <-.
    rewrite H0 in H2. injection H2 as H2. cbn [app nth_error] in G.
    change (cycles_begun []) with 0. refine (boot_held e1 0 0 w0 hist vals j e2 HB HL _ _ _ (eq_sym H2) H3 H4 H5 H6 H7); [lia|lia|].
    right. intros ->. apply G. reflexivity.
  - destruct (held_read e1 _ defaults (IH HB HL HC G ltac:(discriminate)) HD) as (r' & v & R1 & R2 & R3 & R4 & R5).
    rewrite H1 in R1. injection R1 as <-. rewrite H2 in R2. injection R2 as R2.
    destruct (IH HB HL HC G ltac:(discriminate)) as (B1 & L1 & _).
    exact (boot_held e1 _ v w0 hist vals j e2 B1 L1 R4 R5 (or_introl R3) R2 H3 H4 H5 H6 H7).
Qed.

(** leaving startup *)
Lemma wait_total defaults l e' r w0 l' w : length defaults = 9%nat -> nth_error defaults 7 = Some 0 ->
  wait_boots fs defaults (repeat 255 (Z.to_nat 4096)) l e' -> nth_error l 0 <> Some 0%nat ->
  eeprom_init fs defaults e' = Some r -> nth_error r 7 = Some (mm_elapsed (wm w0)) -> wmission w0 = m_startup -> wcc w0 = 0 ->
  history l' w0 w -> Forall (fun g => g = false) l' -> wmission w <> m_startup -> 10600 < cycles_begun l + Z.of_nat (length l').
Proof.
  intros HD H0 H G R1 R2 S C HH F M. destruct table_ok as (_ & _ & TL).
  assert (V : exists v, mm_elapsed (wm w0) = v /\ 0 <= v <= 106 /\ 100 * v <= cycles_begun l).
  { destruct l as [|k l].
    - inversion H as [|? l'' ? ? ? ? ? ? ? ? ? ? ? ? ? ? ? E1 E2 E3]; subst; [|destruct l''; discriminate].
      assert (HC : check_empty (repeat 255 (Z.to_nat 4096)) = true) by (vm_compute; reflexivity).
      unfold eeprom_init in R1. rewrite TL, HC in R1. change (Z.of_nat 9 <=? 4096 / 5) with true in R1. cbv iota in R1. injection R1 as <-.
      rewrite H0 in R2. injection R2 as R2. exists 0. split; [symmetry; exact R2|]. cbn. lia.
    - destruct (held_read e' _ defaults (boots_held defaults _ e' HD H0 H G ltac:(discriminate)) HD) as (r' & v & Q1 & Q2 & _ & Q4 & Q5).
      rewrite R1 in Q1. injection Q1 as <-. rewrite R2 in Q2. injection Q2 as Q2. exists v. split; [exact Q2|]. split; [exact Q4|exact Q5]. }
  destruct V as (v & V1 & V2 & V3). destruct (deployment_history l' w0 w HH F S C v V1 V2) as [D _].
  destruct (Z_lt_dec 10600 (cycles_begun l + Z.of_nat (length l'))) as [Y|Y]; [exact Y|exfalso]. apply M.
  refine (proj1 (D _)). clear - Y V3. lia.
Qed.
End Nine.

(** cycles can always follow *)
Lemma cycles_exist n : forall w0, exists l w, length l = n /\ Forall (fun g => g = false) l /\ history l w0 w.
Proof.
  induction n as [|n IH]; intros w0; [exists [], w0; split; [reflexivity|split; constructor]|].
  destruct (IH w0) as (l & w & L & F & H).
  destruct (mission_execute no_inputs (quiet d_undecided p_idle one_day w)) as [w'|] eqn:E.
  - exists (l ++ [false]), w'. split; [rewrite app_length, L; cbn [length]; lia|]. split; [apply Forall_app; split; [exact F|repeat constructor]|].
    econstructor; [exact H|]. exists (quiet d_undecided p_idle one_day w). split; [apply quiet_env|exact E].
  - exfalso. refine (not_killed _ _ _ E). discriminate.
Qed.
Definition wait_row (v0 : Z) (k : nat) : list Z := [1; 0; 0; 0; 0; 0; 0; v0 + Z.of_nat (S k) / 100; 0].
Lemma rows_wait n w0 v0 : mm_elapsed (wm w0) = v0 -> 0 <= v0 <= 106 -> wmission w0 = m_startup -> wcc w0 = 0 ->
  Z.of_nat n <= 100 * (106 - v0) -> waiting w0 (map (wait_row v0) (seq 0 n)).
Proof.
  intros E B S C L k row N. rewrite nth_error_map in N. destruct (nth_error (seq 0 n) k) as [i|] eqn:NK; [|discriminate]. injection N as <-.
  assert (KN : (k < n)%nat) by (rewrite <- (seq_length n 0); apply nth_error_Some; rewrite NK; discriminate).
  assert (i = k) by (rewrite (nth_error_nth' _ 0%nat) in NK by (rewrite seq_length; exact KN); rewrite seq_nth in NK by exact KN; injection NK as <-; reflexivity).
  subst i. destruct (cycles_exist (Datatypes.S k) w0) as (l & w & LL & F & H). exists l, w. split; [exact LL|]. split; [exact F|]. split; [exact H|].
  destruct (deployment_history l w0 w H F S C v0 E B) as [D _]. rewrite LL in D. destruct (D ltac:(clear - KN L; lia)) as (D1 & D2 & _).
  split; [exact D1|]. rewrite D2. reflexivity.
Qed.
(** with the timer past its end, startup ends in the first cycle *)
Lemma skips i w w' : wmission w = m_startup -> 106 <= mm_elapsed (wm w) -> mission_execute i w = Some w' -> wmission w' <> m_startup.
Proof. intros M E X. destruct (startup_cycle i w w' M X) as (_ & [(A & _)|(_ & A)]); [exfalso; lia|exact A]. Qed.
