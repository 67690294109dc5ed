(** The radio after a fault power cycle, and the venting limit. *)
From Verif Require Import Base FaultModel FaultHandlerModel FaultHandlerSpec FaultHandlerProofs FaultEscalationProofs.

(** ** run of the constituents when none asks for safehold *)
Fixpoint run_all (ms : list machine) (h : hworld) : hworld :=
  match ms with [] => h | m :: t => run_all t (fst (m h)) end.

Lemma run_machines_all ms : forall h ret, existsb is_safehold (responses ms h) = false -> fst (run_machines ms h ret) = run_all ms h.
Proof.
  induction ms as [|m t IH]; intros h ret; cbn [responses existsb run_machines run_all]; [reflexivity|].
  destruct (m h) as [h' r]. cbn [fst snd]. destruct r; cbn [is_safehold orb]; intros X; try discriminate; apply IH, X.
Qed.

(** what the radio handler does depends only on the clock, the shared fields and its own state *)
Lemma quake_agree h h' : hc h' = hc h -> hb h' = hb h -> hq h' = hq h ->
  hb (fst (quake_execute h')) = hb (fst (quake_execute h)) /\ hq (fst (quake_execute h')) = hq (fst (quake_execute h)).
Proof.
  destruct h as [c b f q k v e], h' as [c' b' f' q' k' v' e']. cbn. intros -> -> ->.
  unfold quake_execute, q_disp_unfaulted, q_disp_forced, q_disp_powercycle, q_disp_safehold, q_to, radio_is_disabled, recent_comms, in_state_for. cbn.
  repeat match goal with |- context [if ?c then _ else _] =>
    lazymatch c with context [if _ then _ else _] => fail | _ => destruct c; cbn end end; auto.
Qed.

Lemma simple_fst_agree i l r h : hc (fst (simple_execute i l r h)) = hc h /\ hb (fst (simple_execute i l r h)) = hb h /\ hq (fst (simple_execute i l r h)) = hq h.
Proof. destruct (simple_same i l r h) as ((A & _) & B & C & _). auto. Qed.

Lemma main_quake h : h_enabled h = true -> ~ wants_safehold h ->
  b_radio (hb (fst (main_execute main_machines h))) = b_radio (hb (fst (quake_execute h))) /\
  hq (fst (main_execute main_machines h)) = hq (fst (quake_execute h)).
Proof.
  intros HE HN. unfold main_execute. rewrite HE. cbn [negb].
  assert (X : existsb is_safehold (responses main_machines h) = false).
  { rewrite main_responses. destruct (existsb is_safehold (lists_responses h)) eqn:E; [|reflexivity]. apply main_safehold_iff in E. contradiction. }
  rewrite run_machines_all by exact X. unfold main_machines. cbn [run_all].
  destruct (simple_fst_agree LowBatt active_list_0 RSafehold h) as (A1 & B1 & C1). set (h1 := fst (simple_execute LowBatt _ _ h)) in *.
  destruct (simple_fst_agree Wheel1 active_list_1 RSafehold h1) as (A2 & B2 & C2). set (h2 := fst (simple_execute Wheel1 _ _ h1)) in *.
  destruct (simple_fst_agree Wheel2 active_list_1 RSafehold h2) as (A3 & B3 & C3). set (h3 := fst (simple_execute Wheel2 _ _ h2)) in *.
  destruct (simple_fst_agree Wheel3 active_list_1 RSafehold h3) as (A4 & B4 & C4). set (h4 := fst (simple_execute Wheel3 _ _ h3)) in *.
  destruct (simple_fst_agree WheelPot active_list_1 RSafehold h4) as (A5 & B5 & C5). set (h5 := fst (simple_execute WheelPot _ _ h4)) in *.
  destruct (simple_fst_agree PressurizeFail active_list_2 RStandby h5) as (A6 & B6 & C6). set (h6 := fst (simple_execute PressurizeFail _ _ h5)) in *.
  destruct (simple_fst_agree AttEstimator active_list_3 RSafehold h6) as (A7 & B7 & C7). set (h7 := fst (simple_execute AttEstimator _ _ h6)) in *.
  destruct (quake_agree h h7) as (D1 & D2); [congruence ..|].
  set (h8 := fst (quake_execute h7)) in *.
  destruct (piksi_same h8) as (_ & E1 & E2 & _). set (h9 := fst (piksi_execute h8)) in *.
  destruct (prop_same h9) as (_ & F1 & F2 & _ & _).
  rewrite F1, F2, E1, E2, D1, D2. auto.
Qed.

(** entering a power-cycle stage switches the radio off *)
Definition just_cycled (h : hworld) : Prop :=
  q_powercycle_1 <= q_state (hq h) <= q_powercycle_3 /\ q_entry (hq h) = hc h /\ b_radio (hb h) = r_disabled.

Lemma quake_reconfigures h : q_enabled (hq h) = true -> q_powercycle_1 <= q_state (hq h) <= q_powercycle_3 ->
  hc h = u32 (q_entry (hq h) + 1) -> b_radio (hb (fst (quake_execute h))) = r_config.
Proof.
  intros EN ES HC. unfold quake_execute. rewrite EN. cbn [negb].
  assert (I : u32 (hc h - q_entry (hq h)) = 1).
  { rewrite HC. unfold u32, uwrap. rewrite Zminus_mod_idemp_l. replace (q_entry (hq h) + 1 - q_entry (hq h)) with 1 by lia. reflexivity. }
  assert (P : forall next, b_radio (hb (fst (q_disp_powercycle next h))) = r_config).
  { intros next. unfold q_disp_powercycle. assert (G : (hc h <=? u32 (q_entry (hq h) + 1)) = true) by (apply Z.leb_le; lia). rewrite G. set (h1 := with_b h _).
    unfold in_state_for. change (hc h1) with (hc h). change (hq h1) with (hq h). rewrite I.
    replace (one_day / 3 <=? 1) with false by reflexivity. destruct (recent_comms h1); reflexivity. }
  unfold q_unfaulted, q_forced_standby, q_powercycle_1, q_powercycle_2, q_powercycle_3 in *.
  destruct (Z.eqb_spec (q_state (hq h)) 0); [lia|].
  destruct (Z.eqb_spec (q_state (hq h)) 1); [lia|].
  destruct (Z.eqb_spec (q_state (hq h)) 2); [apply P|]. destruct (Z.eqb_spec (q_state (hq h)) 3); [apply P|].
  destruct (Z.eqb_spec (q_state (hq h)) 4); [apply P|lia].
Qed.

(** a disabled radio is left disabled by an unfaulted handler, which keeps answering "none" *)
Lemma quake_deaf h : q_state (hq h) = q_unfaulted -> b_radio (hb h) = r_disabled -> quake_execute h = (h, RNone).
Proof.
  intros A B. unfold quake_execute. destruct (q_enabled (hq h)); cbn [negb]; [|reflexivity].
  rewrite A. cbn. unfold q_disp_unfaulted, radio_is_disabled. rewrite B. reflexivity.
Qed.

(** ** venting limit *)

(** the propulsion handler run over and over; between runs anything but the venting limit may change *)
Inductive vent_runs (M : Z) : hworld -> Prop :=
| vent_start h : b_max_vent (hb h) = M -> v_num (hv h) = 0 -> (v_not_init (hv h) = true \/ v_saved (hv h) = M) -> vent_runs M h
| vent_run h h1 : vent_runs M h -> b_max_vent (hb h1) = b_max_vent (hb h) -> hv h1 = hv h -> vent_runs M (fst (prop_execute h1)).

Lemma prop_execute_vent h : let h' := fst (prop_execute h) in
  forall M, M <> 0 ->
  ((b_max_vent (hb h) = M /\ v_num (hv h) = 0 /\ (v_not_init (hv h) = true \/ v_saved (hv h) = M)) \/
   (b_max_vent (hb h) = 1 /\ 0 < v_num (hv h) /\ v_not_init (hv h) = false /\ v_saved (hv h) = M)) ->
  0 <= v_num (hv h) <= M -> M < 2 ^ 32 - 1 ->
  (b_max_vent (hb h') = M /\ v_num (hv h') = 0 /\ (v_not_init (hv h') = true \/ v_saved (hv h') = M)) \/
  (b_max_vent (hb h') = 1 /\ 0 < v_num (hv h') <= M /\ v_not_init (hv h') = false /\ v_saved (hv h') = M).
Proof.
  cbv zeta. intros M HM HI HN HB. unfold prop_execute.
  set (h0 := if v_not_init (hv h) then _ else h).
  assert (I0 : v_not_init (hv h0) = false /\ v_saved (hv h0) = M /\ v_num (hv h0) = v_num (hv h) /\ hb h0 = hb h).
  { unfold h0. destruct (v_not_init (hv h)) eqn:E; cbn.
    - destruct HI as [(A & B & C)|(A & B & C & D)]; [auto|discriminate].
    - destruct HI as [(A & B & [C|C])|(A & B & C & D)]; try discriminate; auto. }
  destruct I0 as (J1 & J2 & J3 & J4).
  destruct (both_tanks_same h0) as (_ & K1 & _ & _ & K2 & _). destruct (both_tanks h0) as [h1 b]. cbn [fst snd] in *.
  destruct (negb _ && negb _); cbn [fst].
  { rewrite J1, J2, J3, J4. destruct HI as [(A & B & C)|(A & B & C & D)]; [left|right]; auto. repeat split; auto; lia. }
  destruct b.
  - unfold v_both. rewrite K2, K1, J3, J4, J2, J1.
    destruct (Z.eqb_spec (v_num (hv h)) 0) as [E|E].
    + replace (u32 (v_num (hv h) + 1)) with 1 by (rewrite E; reflexivity). cbn. destruct HI as [(A & _)|(_ & A & _)]; [|lia]. rewrite A. right. repeat split; auto; lia.
    + destruct HI as [(_ & A & _)|(A & A2 & A3 & A4)]; [contradiction|].
      destruct (_ =? p_handling_fault).
      * cbn. rewrite (u32_id (v_num (hv h) + 1)) by lia. destruct (Z.ltb_spec M (v_num (hv h) + 1)).
        -- left. cbn. auto.
        -- right. cbn. rewrite K1, J4. repeat split; auto; lia.
      * right. rewrite K2, K1, J3, J4, J2. repeat split; auto; lia.
  - left. unfold v_restore. cbn. rewrite K2, J2. auto.
Qed.

Lemma vent_runs_inv M h : 0 < M < 2 ^ 32 - 1 -> vent_runs M h ->
  (b_max_vent (hb h) = M /\ v_num (hv h) = 0 /\ (v_not_init (hv h) = true \/ v_saved (hv h) = M)) \/
  (b_max_vent (hb h) = 1 /\ 0 < v_num (hv h) <= M /\ v_not_init (hv h) = false /\ v_saved (hv h) = M).
Proof.
  intros HM. induction 1 as [h A B C|h h1 HV IH E1 E2]; [left; auto|].
  rewrite <- E1, <- E2 in IH.
  apply (prop_execute_vent h1 M); [lia| | |lia].
  - destruct IH as [X|(X1 & X2 & X3 & X4)]; [left; exact X|right; repeat split; auto; lia].
  - destruct IH as [(_ & X & _)|(_ & X & _)]; lia.
Qed.

(** outside an episode in which both tanks vent the limit is the ground's *)
Lemma vent_restored M h h1 : 0 < M < 2 ^ 32 - 1 -> vent_runs M h -> b_max_vent (hb h1) = b_max_vent (hb h) -> hv h1 = hv h ->
  prop_wants_standby h1 ->
  ~ (faulted h1 Tank1Hot /\ (faulted h1 Tank2Hot \/ faulted h1 Overpressure)) ->
  b_max_vent (hb (fst (prop_execute h1))) = M.
Proof.
  intros HM HV E1 E2 HP HN. pose proof (vent_runs_inv M h HM HV) as IH. rewrite <- E1, <- E2 in IH.
  unfold prop_execute. set (h0 := if v_not_init (hv h1) then _ else h1).
  assert (I0 : v_saved (hv h0) = M /\ hb h0 = hb h1 /\ hf h0 = hf h1).
  { unfold h0. destruct (v_not_init (hv h1)) eqn:E; cbn.
    - destruct IH as [(A & B & C)|(A & B & C & D)]; [auto|discriminate].
    - destruct IH as [(A & B & [C|C])|(A & B & C & D)]; try discriminate; auto. }
  destruct I0 as (J1 & J2 & J3).
  destruct (both_tanks_same h0) as (_ & K1 & _ & _ & K2 & K3). destruct (both_tanks h0) as [h2 b]. cbn [fst snd] in *.
  rewrite J2. unfold prop_wants_standby in HP.
  destruct (Z.eqb_spec (b_prop (hb h1)) p_handling_fault); destruct (Z.eqb_spec (b_prop (hb h1)) p_venting); try tauto; cbn [negb andb fst].
  all: rewrite J3 in K3; unfold faulted in HN;
    (destruct b; [exfalso; apply HN; symmetry in K3; apply andb_true_iff in K3; destruct K3 as (L1 & L2); apply orb_true_iff in L2; auto|]);
    cbn; rewrite K2; exact J1.
Qed.

(** ** a power cycle whose second half was skipped, in the last stage: the radio stays off for good *)
Lemma quake_lost h1 h1' r1 h2 h2' r2 :
  q_enabled (hq h1) = true -> q_state (hq h1) = q_powercycle_3 -> b_radio (hb h1) = r_disabled ->
  u32 (q_entry (hq h1) + 1) < hc h1 -> third <= in_stage_for h1 -> quake_execute h1 = (h1', r1) ->
  hq h2 = hq h1' -> b_radio (hb h2) = b_radio (hb h1') -> quake_execute h2 = (h2', r2) ->
  q_state (hq h2') = q_unfaulted /\ b_radio (hb h2') = r_disabled /\ r2 = RNone.
Proof.
  intros EN ES ER HW HT X1 EQ ER2 X2.
  unfold quake_execute in X1. rewrite EN, ES in X1. cbn in X1. unfold q_disp_powercycle in X1.
  destruct (Z.leb_spec (hc h1) (u32 (q_entry (hq h1) + 1))); [lia|].
  unfold in_stage_for in HT. unfold in_state_for in X1. change (one_day / 3) with third in X1.
  change ((hc h1 - q_entry (hq h1)) mod 2 ^ 32) with (u32 (hc h1 - q_entry (hq h1))) in HT.
  destruct (Z.leb_spec third (u32 (hc h1 - q_entry (hq h1)))); [|lia]. cbn in X1. injection X1 as <- <-. cbn in EQ, ER2. rewrite ER in ER2.
  unfold quake_execute in X2. rewrite EQ in X2. cbn in X2. rewrite EN in X2. cbn in X2. unfold q_disp_safehold, radio_is_disabled in X2.
  rewrite ER2 in X2. cbn in X2. injection X2 as <- <-. cbn. auto.
Qed.

(** ** witnesses *)
Definition wit_bus (m p r last vent : Z) : bus := mk_bus m p r false last vent 0 0.
Definition no_faults : fid -> fault := fun _ => fault_make 100.
Definition low_batt : fid -> fault := fupd no_faults LowBatt (mk_flt false 0 0 false false true false false 100).

(** a day in forced standby has passed without contact *)
Definition before_power_cycle : hworld :=
  mk_h (2 * one_day) (wit_bus m_standby p_idle 0 0 20) no_faults (mk_q q_forced_standby one_day true) (mk_k true one_day 100 0) (mk_v 20 0 false) true.
Definition next_cycle (h : hworld) (m : Z) (fs : fid -> fault) : hworld :=
  mk_h (u32 (hc h + 1)) (set_mission (hb h) m) fs (hq h) (hk h) (hv h) (h_enabled h).
