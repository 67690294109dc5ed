From Verif Require Import Base FaultModel FaultHandlerModel FaultHandlerSpec.

Lemma run_machines_resp ms : forall h ret, ret <> RSafehold ->
  snd (run_machines ms h ret) = most_severe (ret :: responses ms h).
Proof.
  induction ms as [|m t IH]; intros h ret HR; simpl.
  - destruct ret; try reflexivity; contradiction.
  - destruct (m h) as [h' r] eqn:E. simpl. unfold most_severe in *. destruct r; simpl in *.
    + rewrite IH by assumption. destruct ret; simpl; reflexivity.
    + destruct ret; simpl; try reflexivity.
    + rewrite IH by discriminate. destruct ret; simpl; try reflexivity; try contradiction.
Qed.

Lemma main_execute_resp ms h :
  snd (main_execute ms h) = if h_enabled h then most_severe (responses ms h) else RNone.
Proof.
  unfold main_execute. destruct (h_enabled h); simpl; [|reflexivity].
  rewrite run_machines_resp by discriminate. reflexivity.
Qed.

(** ** What the machines leave alone *)

Definition same_inputs (h h' : hworld) : Prop :=
  hc h' = hc h /\ b_mission (hb h') = b_mission (hb h) /\ b_last_comms (hb h') = b_last_comms (hb h) /\
  b_piksi (hb h') = b_piksi (hb h) /\ b_enter_ca (hb h') = b_enter_ca (hb h) /\ h_enabled h' = h_enabled h.

Lemma same_inputs_trans a b c : same_inputs a b -> same_inputs b c -> same_inputs a c.
Proof. unfold same_inputs. intuition congruence. Qed.
Lemma same_inputs_refl a : same_inputs a a.
Proof. unfold same_inputs. auto 10. Qed.

Lemma is_faulted_same i h : same_inputs h (fst (is_faulted i h)) /\ hb (fst (is_faulted i h)) = hb h /\
  hq (fst (is_faulted i h)) = hq h /\ hk (fst (is_faulted i h)) = hk h /\ hv (fst (is_faulted i h)) = hv h /\
  (forall j, j <> i -> hf (fst (is_faulted i h)) j = hf h j) /\ snd (is_faulted i h) = snd (fault_read (hf h i)).
Proof.
  unfold is_faulted. destruct (fault_read (hf h i)) as [f b] eqn:E. simpl. repeat split; auto.
  intros j HJ. unfold fupd. destruct i, j; simpl; try reflexivity; contradiction.
Qed.

Lemma simple_same i l r h : let h' := fst (simple_execute i l r h) in
  same_inputs h h' /\ hb h' = hb h /\ hq h' = hq h /\ hk h' = hk h /\ hv h' = hv h /\ (forall j, j <> i -> hf h' j = hf h j).
Proof.
  cbv zeta. unfold simple_execute. destruct (existsb _ _); [|cbn; auto 10 using same_inputs_refl].
  pose proof (is_faulted_same i h) as (A & B & C & D & E & F & _). destruct (is_faulted i h) as [h' b]. cbn [fst] in *. auto 10.
Qed.

Lemma quake_same h : let h' := fst (quake_execute h) in
  same_inputs h h' /\ b_prop (hb h') = b_prop (hb h) /\ b_max_vent (hb h') = b_max_vent (hb h) /\
  hk h' = hk h /\ hv h' = hv h /\ hf h' = hf h /\ q_enabled (hq h') = q_enabled (hq h).
Proof.
  cbv zeta. unfold quake_execute, q_disp_unfaulted, q_disp_forced, q_disp_powercycle, q_disp_safehold, q_to, same_inputs.
  destruct h as [c b f q k v e], q as [s n en]. cbn.
  repeat match goal with |- context [if ?c then _ else _] => destruct c; cbn end; auto 20.
Qed.

Lemma piksi_same h : let h' := fst (piksi_execute h) in
  same_inputs h h' /\ hb h' = hb h /\ hq h' = hq h /\ hv h' = hv h /\ (forall j, j <> PiksiDead -> hf h' j = hf h j).
Proof.
  cbv zeta. unfold piksi_execute. destruct (negb (k_enabled (hk h))); [cbn; auto 10 using same_inputs_refl|].
  set (sf := (_ && (_ || _))%bool). set (h1 := with_f _ _).
  pose proof (is_faulted_same PiksiDead h1) as (A & B & C & D & E & F & _). destruct (is_faulted PiksiDead h1) as [h2 b]. cbn [fst] in *.
  assert (G : same_inputs h h2) by exact A.
  assert (I : forall j, j <> PiksiDead -> hf h2 j = hf h j).
  { intros j HJ. rewrite F by assumption. unfold h1. cbn. unfold fupd. destruct j; try reflexivity. contradiction. }
  change (hb h1) with (hb h) in B. change (hq h1) with (hq h) in C. change (hv h1) with (hv h) in E.
  destruct b; [cbn; auto 10|].
  destruct ((b_mission (hb h) =? m_follower_close_approach) || (b_mission (hb h) =? m_leader_close_approach)); cbn [fst];
    destruct (b_piksi (hb h) =? k_fixed_rtk); (split; [exact G|]; split; [exact B|]; split; [exact C|]; split; [exact E|exact I]).
Qed.

Lemma both_tanks_same h : same_inputs h (fst (both_tanks h)) /\ hb (fst (both_tanks h)) = hb h /\
  hq (fst (both_tanks h)) = hq h /\ hk (fst (both_tanks h)) = hk h /\ hv (fst (both_tanks h)) = hv h /\
  snd (both_tanks h) = snd (fault_read (hf h Tank1Hot)) && (snd (fault_read (hf h Tank2Hot)) || snd (fault_read (hf h Overpressure))).
Proof.
  unfold both_tanks.
  pose proof (is_faulted_same Tank1Hot h) as (A1 & B1 & C1 & D1 & E1 & F1 & G1). destruct (is_faulted Tank1Hot h) as [h1 t1]. cbn [fst snd] in *.
  pose proof (is_faulted_same Tank2Hot h1) as (A2 & B2 & C2 & D2 & E2 & F2 & G2). destruct (is_faulted Tank2Hot h1) as [h2 t2]. cbn [fst snd] in *.
  pose proof (is_faulted_same Overpressure h2) as (A3 & B3 & C3 & D3 & E3 & F3 & G3). destruct (is_faulted Overpressure h2) as [h3 t3]. cbn [fst snd] in *.
  rewrite G1. rewrite F1 in G2 by discriminate. rewrite F2, F1 in G3 by discriminate. rewrite <- G2, <- G3.
  destruct t2; cbn [fst snd]; repeat split; try congruence; try (unfold same_inputs in *; intuition congruence).
Qed.

Lemma prop_same h : let h' := fst (prop_execute h) in
  same_inputs h h' /\ b_radio (hb h') = b_radio (hb h) /\ hq h' = hq h /\ hk h' = hk h /\
  snd (prop_execute h) = (if (b_prop (hb h) =? p_handling_fault) || (b_prop (hb h) =? p_venting) then RStandby else RNone).
Proof.
  cbv zeta. unfold prop_execute.
  assert (E : exists v0, (if v_not_init (hv h) then with_v h (mk_v (b_max_vent (hb h)) (v_num (hv h)) false) else h) = with_v h v0).
  { destruct (v_not_init (hv h)); [eexists; reflexivity|]. exists (hv h). destruct h; reflexivity. }
  destruct E as (v0 & ->). set (h0 := with_v h v0).
  change (b_prop (hb h0)) with (b_prop (hb h)).
  pose proof (both_tanks_same h0) as (A & B & C & D & E & _). destruct (both_tanks h0) as [h1 b]. cbn [fst snd] in *.
  assert (A' : same_inputs h h1) by exact A. clear A.
  change (hb h0) with (hb h) in B. change (hq h0) with (hq h) in C. change (hk h0) with (hk h) in D.
  destruct (b_prop (hb h) =? p_handling_fault); destruct (b_prop (hb h) =? p_venting); cbn [negb andb orb fst snd].
  4: { repeat split. }
  all: unfold v_both, v_restore; unfold same_inputs in *; rewrite B in A';
    repeat match goal with |- context [if ?c then _ else _] => destruct c end; cbn; rewrite ?B; intuition.
Qed.

Lemma prop_prop h : b_prop (hb (fst (prop_execute h))) = b_prop (hb h) \/ b_prop (hb (fst (prop_execute h))) = p_disabled.
Proof.
  unfold prop_execute.
  assert (E : exists v0, (if v_not_init (hv h) then with_v h (mk_v (b_max_vent (hb h)) (v_num (hv h)) false) else h) = with_v h v0).
  { destruct (v_not_init (hv h)); [eexists; reflexivity|]. exists (hv h). destruct h; reflexivity. }
  destruct E as (v0 & ->). set (h0 := with_v h v0).
  change (b_prop (hb h0)) with (b_prop (hb h)).
  pose proof (both_tanks_same h0) as (A & B & C & D & E & _). destruct (both_tanks h0) as [h1 b]. cbn [fst snd] in *.
  change (hb h0) with (hb h) in B.
  unfold v_both, v_restore.
  repeat match goal with |- context [if ?c then _ else _] => destruct c end; cbn; rewrite ?B; auto.
Qed.

Definition frame (m : machine) : Prop := forall h, same_inputs h (fst (m h)).

Lemma run_machines_same ms : Forall frame ms -> forall h ret, same_inputs h (fst (run_machines ms h ret)).
Proof.
  induction 1 as [|m t HM HT IH]; intros h ret; simpl; [apply same_inputs_refl|].
  specialize (HM h). destruct (m h) as [h' r]. simpl in HM.
  destruct r; simpl; [eapply same_inputs_trans; [exact HM|apply IH]|exact HM|eapply same_inputs_trans; [exact HM|apply IH]].
Qed.

Lemma main_machines_frame : Forall frame main_machines.
Proof.
  unfold main_machines. repeat (apply Forall_cons; [intros h|]); try apply Forall_nil; try (apply simple_same).
  - apply (quake_same h).
  - apply (piksi_same h).
  - apply (prop_same h).
Qed.

Lemma main_same h : same_inputs h (fst (main_execute main_machines h)).
Proof.
  unfold main_execute. destruct (negb _); [apply same_inputs_refl|]. apply run_machines_same, main_machines_frame.
Qed.

(** ** What the machines answer *)

Definition simple_resp (h : hworld) (i : fid) (l : list Z) (r : resp) : resp :=
  if existsb (Z.eqb (b_mission (hb h))) l && snd (fault_read (hf h i)) then r else RNone.

Lemma simple_snd i l r h : snd (simple_execute i l r h) = simple_resp h i l r.
Proof.
  unfold simple_execute, simple_resp. destruct (existsb _ l); [|reflexivity].
  pose proof (is_faulted_same i h) as (_ & _ & _ & _ & _ & _ & G). destruct (is_faulted i h). simpl in *. rewrite G. reflexivity.
Qed.

Lemma quake_snd_safehold h : snd (quake_execute h) = RSafehold <->
  q_enabled (hq h) = true /\ q_state (hq h) = q_safehold /\ ~ radio_off h /\ one_day <= silent_for h.
Proof.
  unfold quake_execute, q_disp_unfaulted, q_disp_forced, q_disp_powercycle, q_disp_safehold, silent_for, radio_off, radio_is_disabled, recent_comms.
  unfold u32, uwrap.
  destruct (q_enabled (hq h)); cbn [negb]; [|cbn; intuition discriminate].
  destruct (Z.eqb_spec (q_state (hq h)) q_unfaulted) as [->|N0].
  { destruct (_ || _); cbn; split; try discriminate; intros (_ & X & _); discriminate. }
  destruct (Z.eqb_spec (q_state (hq h)) q_forced_standby) as [->|N1].
  { destruct (in_state_for h _); [cbn|destruct (_ || _); cbn]; split; try discriminate; intros (_ & X & _); discriminate. }
  destruct (Z.eqb_spec (q_state (hq h)) q_powercycle_1) as [->|N2].
  { match goal with |- context [in_state_for ?x _] => destruct (in_state_for x _) end; [cbn|destruct (_ <? _); cbn];
      split; try discriminate; intros (_ & X & _); discriminate. }
  destruct (Z.eqb_spec (q_state (hq h)) q_powercycle_2) as [->|N3].
  { match goal with |- context [in_state_for ?x _] => destruct (in_state_for x _) end; [cbn|destruct (_ <? _); cbn];
      split; try discriminate; intros (_ & X & _); discriminate. }
  destruct (Z.eqb_spec (q_state (hq h)) q_powercycle_3) as [->|N4].
  { match goal with |- context [in_state_for ?x _] => destruct (in_state_for x _) end; [cbn|destruct (_ <? _); cbn];
      split; try discriminate; intros (_ & X & _); discriminate. }
  destruct (Z.eqb_spec (q_state (hq h)) q_safehold) as [->|N5].
  2: { cbn. split; [discriminate|]. intros (_ & X & _). contradiction. }
  destruct (Z.eqb_spec (b_radio (hb h)) r_disabled) as [E|E]; cbn [orb].
  { cbn. split; [discriminate|]. intros (_ & _ & X & _). contradiction. }
  destruct (Z.ltb_spec ((hc h - b_last_comms (hb h)) mod 2 ^ 32) one_day); cbn [snd]; split; try discriminate; intros; try tauto.
  destruct H0 as (_ & _ & _ & X). lia.
Qed.

Lemma quake_snd_standby h : snd (quake_execute h) = RStandby <-> quake_wants_standby h.
Proof.
  unfold quake_wants_standby, quake_execute, q_disp_unfaulted, q_disp_forced, q_disp_powercycle, q_disp_safehold, silent_for, in_stage_for, radio_off, radio_is_disabled, recent_comms.
  unfold u32, uwrap.
  destruct (q_enabled (hq h)); cbn [negb]; [|cbn; intuition discriminate].
  assert (P : forall h1 h2 h3 n, hc h1 = hc h -> q_entry (hq h1) = q_entry (hq h) -> b_last_comms (hb h1) = b_last_comms (hb h) ->
     snd (if in_state_for h1 n then (h2, RStandby) else if (hc h1 - b_last_comms (hb h1)) mod 2 ^ 32 <? one_day then (h3, RNone) else (h1, RStandby)) = RStandby <->
     (n <= (hc h - q_entry (hq h)) mod 2 ^ 32 \/ one_day <= (hc h - b_last_comms (hb h)) mod 2 ^ 32)).
  { intros h1 h2 h3 n E1 E2 E3. unfold in_state_for, u32, uwrap. rewrite E1, E2, E3.
    destruct (Z.leb_spec n ((hc h - q_entry (hq h)) mod 2 ^ 32)); cbn [snd]; [tauto|].
    destruct (Z.ltb_spec ((hc h - b_last_comms (hb h)) mod 2 ^ 32) one_day); cbn [snd]; split; try tauto; try discriminate.
    intros [A|A]; lia. }
  assert (Q : forall s next, (q_state (hq h) = s) -> q_powercycle_1 <= s <= q_powercycle_3 ->
    snd (let h1 := if hc h <=? (q_entry (hq h) + 1) mod 2 ^ 32 then with_b h (set_radio (hb h) r_config) else h in
      if in_state_for h1 (one_day / 3) then
        let h2 := if negb (next =? q_safehold) then with_b h1 (set_radio_pc (set_radio (hb h1) r_disabled) true) else h1 in
        (q_to h2 next, RStandby)
      else if (hc h1 - b_last_comms (hb h1)) mod 2 ^ 32 <? one_day then (q_to h1 q_unfaulted, RNone) else (h1, RStandby)) = RStandby <->
    true = true /\
     (s = q_unfaulted /\ b_radio (hb h) <> r_disabled /\ one_day <= (hc h - b_last_comms (hb h)) mod 2 ^ 32 \/
      s = q_forced_standby /\ (one_day <= (hc h - q_entry (hq h)) mod 2 ^ 32 \/ b_radio (hb h) <> r_disabled /\ one_day <= (hc h - b_last_comms (hb h)) mod 2 ^ 32) \/
      q_powercycle_1 <= s <= q_powercycle_3 /\ (one_day / 3 <= (hc h - q_entry (hq h)) mod 2 ^ 32 \/ one_day <= (hc h - b_last_comms (hb h)) mod 2 ^ 32))).
  { intros s next ES HS. cbv zeta. rewrite P; [|destruct (_ <=? _); reflexivity ..].
    unfold q_unfaulted, q_forced_standby, q_powercycle_1 in *. split; intros A; [split; [reflexivity|]; right; right; tauto|].
    destruct A as (_ & [(A & _)|[(A & _)|(_ & A)]]); lia. }
  destruct (Z.eqb_spec (q_state (hq h)) q_unfaulted) as [E|N0].
  { rewrite E. destruct (Z.eqb_spec (b_radio (hb h)) r_disabled) as [R|R]; cbn [orb].
    - cbn [snd]. split; [discriminate|]. unfold q_unfaulted, q_forced_standby, q_powercycle_1. intros (_ & [(_ & A & _)|[(A & _)|(A & _)]]); [contradiction|lia|lia].
    - destruct (Z.ltb_spec ((hc h - b_last_comms (hb h)) mod 2 ^ 32) one_day); cbn [snd].
      + split; [discriminate|]. unfold q_unfaulted, q_forced_standby, q_powercycle_1. intros (_ & [(_ & _ & A)|[(A & _)|(A & _)]]); lia.
      + tauto. }
  destruct (Z.eqb_spec (q_state (hq h)) q_forced_standby) as [E|N1].
  { rewrite E. unfold in_state_for, u32, uwrap. destruct (Z.leb_spec one_day ((hc h - q_entry (hq h)) mod 2 ^ 32)); cbn [snd]; [tauto|].
    destruct (Z.eqb_spec (b_radio (hb h)) r_disabled) as [R|R]; cbn [orb].
    - cbn [snd]. split; [discriminate|]. unfold q_unfaulted, q_forced_standby, q_powercycle_1. intros (_ & [(A & _)|[(_ & [A|(A & _)])|(A & _)]]); try lia; contradiction.
    - destruct (Z.ltb_spec ((hc h - b_last_comms (hb h)) mod 2 ^ 32) one_day); cbn [snd].
      + split; [discriminate|]. unfold q_unfaulted, q_forced_standby, q_powercycle_1. intros (_ & [(A & _)|[(_ & [A|(_ & A)])|(A & _)]]); lia.
      + tauto. }
  destruct (Z.eqb_spec (q_state (hq h)) q_powercycle_1) as [E|N2].
  { rewrite E. apply Q; [exact E|]. unfold q_powercycle_1, q_powercycle_3. lia. }
  destruct (Z.eqb_spec (q_state (hq h)) q_powercycle_2) as [E|N3].
  { rewrite E. apply Q; [exact E|]. unfold q_powercycle_1, q_powercycle_2, q_powercycle_3. lia. }
  destruct (Z.eqb_spec (q_state (hq h)) q_powercycle_3) as [E|N4].
  { rewrite E. apply Q; [exact E|]. unfold q_powercycle_1, q_powercycle_3. lia. }
  assert (X : ~ (q_powercycle_1 <= q_state (hq h) <= q_powercycle_3)).
  { unfold q_powercycle_1, q_powercycle_2, q_powercycle_3 in *. lia. }
  destruct (Z.eqb_spec (q_state (hq h)) q_safehold) as [E|N5]; [destruct (_ || _)|]; cbn [snd]; split; try discriminate; tauto.
Qed.

Lemma piksi_snd h : snd (piksi_execute h) <> RSafehold /\ (snd (piksi_execute h) = RStandby <-> piksi_wants_standby h).
Proof.
  unfold piksi_execute, piksi_wants_standby. destruct (k_enabled (hk h)) eqn:K; cbn [negb].
  2: { cbn. split; [discriminate|]. intuition discriminate. }
  set (sf := (_ && (_ || _))%bool).
  assert (ES : piksi_bad h = sf).
  { unfold piksi_bad, sf. cbn [existsb]. unfold m_startup.
    destruct (_ =? 0), (_ =? m_detumble), (_ =? m_initialization_hold), (_ =? k_crc_error), (_ =? k_data_error), (_ =? k_no_data_error); reflexivity. }
  set (h1 := with_f _ _).
  pose proof (is_faulted_same PiksiDead h1) as (A & B & C & D & E & F & G). destruct (is_faulted PiksiDead h1) as [h2 b]. cbn [fst snd] in *.
  change (hf h1 PiksiDead) with (fault_evaluate (hc h) sf (hf h PiksiDead)) in G.
  unfold piksi_dead_now. rewrite ES, <- G. clear G ES.
  destruct b; [cbn; split; [discriminate|]; tauto|].
  assert (HC : hc h2 = hc h) by (exact (proj1 A)).
  change (hb h1) with (hb h) in B. change (hk h1) with (hk h) in D.
  set (h3 := if b_piksi (hb h) =? k_fixed_rtk then _ else h2).
  assert (H3 : hb h3 = hb h /\ hc h3 = hc h /\ k_last_rtk (hk h3) = last_fix h /\ k_no_cdgps_wait (hk h3) = k_no_cdgps_wait (hk h)
     /\ k_delay_wait (hk h3) = k_delay_wait (hk h)).
  { unfold h3, last_fix. destruct (_ =? k_fixed_rtk); cbn; rewrite ?D, ?HC, ?B; auto. }
  destruct H3 as (P1 & P2 & P3 & P4 & P5).
  unfold check_cdgps. rewrite P1, P2, P3, P4, P5. unfold u32, uwrap.
  destruct (Z.eqb_spec (b_mission (hb h)) m_follower_close_approach) as [E1|E1];
  [|destruct (Z.eqb_spec (b_mission (hb h)) m_leader_close_approach) as [E2|E2]]; cbn [orb].
  3: { cbn [snd]. split; [discriminate|]. split; [discriminate|]. intros (_ & [X|([X|[X|[]]] & _)]); congruence. }
  all: cbn [snd]; set (x := b_enter_ca (hb h)); set (y := last_fix h).
  all: assert (M : Z.max x y = if y <=? x then x else y) by (destruct (Z.leb_spec y x); lia); rewrite M.
  all: destruct (Z.leb_spec y x) as [L|L]; cbn [andb].
  all: destruct (Z.ltb_spec x y); try lia; cbn [andb].
  all: match goal with |- context [?a <? ?b] => destruct (Z.ltb_spec a b) end; cbn [andb].
  all: split; [discriminate|]; split; try discriminate; try tauto; intros.
  all: try (split; [reflexivity|]; right; split; [cbn [In]; rewrite ?E1, ?E2; auto|lia]).
  all: match goal with H : _ /\ (_ \/ _) |- _ => destruct H as (_ & [X|(_ & X)]); [discriminate|lia] end.
Qed.

Definition lists_responses (h : hworld) : list resp :=
  [simple_resp h LowBatt active_list_0 RSafehold; simple_resp h Wheel1 active_list_1 RSafehold;
   simple_resp h Wheel2 active_list_1 RSafehold; simple_resp h Wheel3 active_list_1 RSafehold;
   simple_resp h WheelPot active_list_1 RSafehold; simple_resp h PressurizeFail active_list_2 RStandby;
   simple_resp h AttEstimator active_list_3 RSafehold; snd (quake_execute h); snd (piksi_execute h); snd (prop_execute h)].

(** inputs of a handler agree *)
Definition agree (h h' : hworld) (seen : list fid) : Prop :=
  same_inputs h h' /\ hb h' = hb h /\ hq h' = hq h /\ hk h' = hk h /\ hv h' = hv h /\ (forall j, ~ In j seen -> hf h' j = hf h j).

Lemma simple_agree i l r h h' seen : agree h h' seen -> agree h (fst (simple_execute i l r h')) (i :: seen).
Proof.
  intros (A & B & C & D & E & F). pose proof (simple_same i l r h') as (A' & B' & C' & D' & E' & F').
  split; [eapply same_inputs_trans; eassumption|]. repeat split; try congruence.
  intros j HJ. rewrite F' by (intros ->; apply HJ; left; reflexivity). apply F. intros X. apply HJ. right. exact X.
Qed.

Lemma simple_resp_agree i l r h h' seen : agree h h' seen -> ~ In i seen -> simple_resp h' i l r = simple_resp h i l r.
Proof. intros (A & B & C & D & E & F) HN. unfold simple_resp. rewrite B, F by assumption. reflexivity. Qed.

Lemma resp_ext (a b : resp) : (a = RSafehold <-> b = RSafehold) -> (a = RStandby <-> b = RStandby) -> a = b.
Proof. destruct a, b; intuition; try discriminate; exfalso; intuition discriminate. Qed.

Lemma main_responses h : responses main_machines h = lists_responses h.
Proof.
  unfold lists_responses, main_machines.
  assert (A0 : agree h h []) by (unfold agree; auto 10 using same_inputs_refl).
  cbn [responses]. rewrite !simple_snd.
  pose proof (simple_agree LowBatt active_list_0 RSafehold _ _ _ A0) as A1. set (h1 := fst (simple_execute LowBatt _ _ h)) in *.
  pose proof (simple_agree Wheel1 active_list_1 RSafehold _ _ _ A1) as A2. set (h2 := fst (simple_execute Wheel1 _ _ h1)) in *.
  pose proof (simple_agree Wheel2 active_list_1 RSafehold _ _ _ A2) as A3. set (h3 := fst (simple_execute Wheel2 _ _ h2)) in *.
  pose proof (simple_agree Wheel3 active_list_1 RSafehold _ _ _ A3) as A4. set (h4 := fst (simple_execute Wheel3 _ _ h3)) in *.
  pose proof (simple_agree WheelPot active_list_1 RSafehold _ _ _ A4) as A5. set (h5 := fst (simple_execute WheelPot _ _ h4)) in *.
  pose proof (simple_agree PressurizeFail active_list_2 RStandby _ _ _ A5) as A6. set (h6 := fst (simple_execute PressurizeFail _ _ h5)) in *.
  pose proof (simple_agree AttEstimator active_list_3 RSafehold _ _ _ A6) as A7. set (h7 := fst (simple_execute AttEstimator _ _ h6)) in *.
  rewrite (simple_resp_agree _ _ _ _ _ _ A1) by (cbn; intuition discriminate).
  rewrite (simple_resp_agree _ _ _ _ _ _ A2) by (cbn; intuition discriminate).
  rewrite (simple_resp_agree _ _ _ _ _ _ A3) by (cbn; intuition discriminate).
  rewrite (simple_resp_agree _ _ _ _ _ _ A4) by (cbn; intuition discriminate).
  rewrite (simple_resp_agree _ _ _ _ _ _ A5) by (cbn; intuition discriminate).
  rewrite (simple_resp_agree _ _ _ _ _ _ A6) by (cbn; intuition discriminate).
  destruct A7 as ((C1 & C2 & C3 & C4 & C5 & C6) & B & Q & K & V & F).
  pose proof (quake_same h7) as (D1 & D2 & D3 & D4 & D5 & D6 & D7). set (h8 := fst (quake_execute h7)) in *.
  pose proof (piksi_same h8) as (E1 & E2 & E3 & E4 & E5). set (h9 := fst (piksi_execute h8)) in *.
  assert (R8 : snd (quake_execute h7) = snd (quake_execute h)).
  { apply resp_ext.
    - rewrite !quake_snd_safehold. unfold radio_off, silent_for. rewrite Q, B, C1. reflexivity.
    - rewrite !quake_snd_standby. unfold quake_wants_standby, radio_off, silent_for, in_stage_for. rewrite Q, B, C1. reflexivity. }
  assert (R9 : snd (piksi_execute h8) = snd (piksi_execute h)).
  { destruct (piksi_snd h8) as (X1 & X2), (piksi_snd h) as (Y1 & Y2). apply resp_ext; [tauto|]. rewrite X2, Y2.
    unfold piksi_wants_standby, piksi_dead_now, piksi_bad, last_fix. destruct D1 as (D1 & M1 & M2 & M3 & M4 & M5).
    rewrite D4, D6, D1, C1, M1, C2, M3, C4, M4, C5, K. rewrite F by (cbn; intuition discriminate). reflexivity. }
  assert (R10 : snd (prop_execute h9) = snd (prop_execute h)).
  { destruct (prop_same h9) as (_ & _ & _ & _ & ->). destruct (prop_same h) as (_ & _ & _ & _ & ->). rewrite E2, D2, B. reflexivity. }
  rewrite R8, R9, R10. reflexivity.
Qed.

Lemma existsb_In m l : existsb (Z.eqb m) l = true <-> In m l.
Proof.
  rewrite existsb_exists. split.
  - intros (x & A & B). apply Z.eqb_eq in B. subst. exact A.
  - intros A. exists m. split; [exact A|apply Z.eqb_refl].
Qed.

Lemma simple_resp_iff h i l r : r <> RNone -> (simple_resp h i l r = r <-> In (b_mission (hb h)) l /\ faulted h i).
Proof.
  intros HR. unfold simple_resp, faulted. rewrite <- existsb_In.
  destruct (existsb _ l), (snd (fault_read (hf h i))); cbn; intuition congruence.
Qed.

Lemma simple_resp_not h i l r r' : r' <> RNone -> r' <> r -> simple_resp h i l r <> r'.
Proof. intros A B. unfold simple_resp. destruct (_ && _); congruence. Qed.

Lemma is_safehold_iff r : is_safehold r = true <-> r = RSafehold.
Proof. destruct r; cbn; intuition discriminate. Qed.
Lemma is_standby_iff r : is_standby r = true <-> r = RStandby.
Proof. destruct r; cbn; intuition discriminate. Qed.

Lemma main_safehold_iff h : existsb is_safehold (lists_responses h) = true <-> wants_safehold h.
Proof.
  unfold lists_responses, wants_safehold. rewrite existsb_exists. split.
  - intros (r & HI & HS). apply is_safehold_iff in HS. subst r. cbn [In] in HI.
    destruct HI as [X|[X|[X|[X|[X|[X|[X|[X|[X|[X|[]]]]]]]]]]].
    + apply simple_resp_iff in X; [|discriminate]. left. destruct X as (X & Y). split; [|exact Y].
      unfold active_list_0 in X. cbn [In] in *. intuition.
    + apply simple_resp_iff in X; [|discriminate]. right; left. destruct X as (X & Y). split; [unfold active_list_1 in X; cbn [In] in *; intuition|].
      exists Wheel1. cbn. auto.
    + apply simple_resp_iff in X; [|discriminate]. right; left. destruct X as (X & Y). split; [unfold active_list_1 in X; cbn [In] in *; intuition|].
      exists Wheel2. cbn. auto.
    + apply simple_resp_iff in X; [|discriminate]. right; left. destruct X as (X & Y). split; [unfold active_list_1 in X; cbn [In] in *; intuition|].
      exists Wheel3. cbn. auto.
    + apply simple_resp_iff in X; [|discriminate]. right; left. destruct X as (X & Y). split; [unfold active_list_1 in X; cbn [In] in *; intuition|].
      exists WheelPot. cbn. auto 10.
    + exfalso. revert X. apply simple_resp_not; discriminate.
    + apply simple_resp_iff in X; [|discriminate]. right; right; left. exact X.
    + apply quake_snd_safehold in X. auto.
    + exfalso. exact (proj1 (piksi_snd h) X).
    + exfalso. destruct (prop_same h) as (_ & _ & _ & _ & E). rewrite E in X. destruct (_ || _); discriminate.
  - intros [(X & Y)|[(X & i & I & Y)|[(X & Y)|X]]].
    + exists RSafehold. split; [|reflexivity]. left. apply simple_resp_iff; [discriminate|].
      split; [|exact Y]. unfold active_list_0. cbn [In] in *. intuition.
    + exists RSafehold. split; [|reflexivity].
      assert (Z : In (b_mission (hb h)) active_list_1) by (unfold active_list_1; cbn [In] in *; intuition).
      assert (W : simple_resp h i active_list_1 RSafehold = RSafehold) by (apply simple_resp_iff; [discriminate|]; split; assumption).
      cbn [In] in I. destruct I as [<-|[<-|[<-|[<-|[]]]]]; rewrite W; cbn; auto 10.
    + exists RSafehold. split; [|reflexivity].
      assert (W : simple_resp h AttEstimator active_list_3 RSafehold = RSafehold) by (apply simple_resp_iff; [discriminate|]; split; assumption).
      rewrite W. cbn. auto 10.
    + exists RSafehold. split; [|reflexivity]. apply quake_snd_safehold in X. rewrite X. cbn. auto 15.
Qed.

Lemma main_standby_iff h : existsb is_standby (lists_responses h) = true <-> wants_standby h.
Proof.
  unfold lists_responses, wants_standby. rewrite existsb_exists.
  destruct (prop_same h) as (_ & _ & _ & _ & EP).
  assert (EP' : snd (prop_execute h) = RStandby <-> prop_wants_standby h).
  { rewrite EP. unfold prop_wants_standby. destruct (Z.eqb_spec (b_prop (hb h)) p_handling_fault), (Z.eqb_spec (b_prop (hb h)) p_venting); cbn; intuition discriminate. }
  split.
  - intros (r & HI & HS). apply is_standby_iff in HS. subst r. cbn [In] in HI.
    destruct HI as [X|[X|[X|[X|[X|[X|[X|[X|[X|[X|[]]]]]]]]]]]; try (exfalso; revert X; apply simple_resp_not; discriminate).
    + apply simple_resp_iff in X; [|discriminate]. left. exact X.
    + apply quake_snd_standby in X. auto.
    + apply (proj2 (piksi_snd h)) in X. auto.
    + apply EP' in X. auto.
  - intros X. exists RStandby. split; [|reflexivity]. destruct X as [X|[X|[X|X]]].
    + assert (W : simple_resp h PressurizeFail active_list_2 RStandby = RStandby) by (apply simple_resp_iff; [discriminate|]; exact X).
      rewrite W. cbn. auto 10.
    + apply quake_snd_standby in X. rewrite X. cbn. auto 15.
    + apply (proj2 (piksi_snd h)) in X. rewrite X. cbn. auto 15.
    + apply EP' in X. rewrite X. cbn. auto 15.
Qed.

Theorem main_safehold h : snd (main_execute main_machines h) = RSafehold <-> h_enabled h = true /\ wants_safehold h.
Proof.
  rewrite main_execute_resp, main_responses. destruct (h_enabled h); [|intuition discriminate].
  rewrite <- main_safehold_iff. unfold most_severe.
  destruct (existsb is_safehold _); [tauto|]. destruct (existsb is_standby _); intuition discriminate.
Qed.

Theorem main_standby h : snd (main_execute main_machines h) = RStandby <-> h_enabled h = true /\ ~ wants_safehold h /\ wants_standby h.
Proof.
  rewrite main_execute_resp, main_responses. destruct (h_enabled h); [|intuition discriminate].
  rewrite <- main_safehold_iff, <- main_standby_iff. unfold most_severe.
  destruct (existsb is_safehold _); [intuition discriminate|]. destruct (existsb is_standby _); intuition discriminate.
Qed.
