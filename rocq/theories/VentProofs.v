From Verif Require Import Base FaultModel FaultHandlerModel FaultProofs PropModel PropSpec PropProofs PropCtrlProofs PropValveProofs PropRunProofs VentSpec.

Local Arguments in_force : simpl never.
(** ** Reading a fault does not change what the next reading answers *)
Lemma read_again f : snd (fault_read (fst (fault_read f))) = snd (fault_read f).
Proof.
  destruct f as [fl num last po ps ov su un pe]. rewrite fault_read_eq. cbv zeta.
  destruct po, ps, ov, su, un; cbn; try reflexivity.
Qed.

(** the same state, up to the faults' bookkeeping, with the same faults in force *)
Definition alike (p q : pst) : Prop := same p q /\ forall i, in_force q i = in_force p i.
Lemma alike_refl p : alike p p. Proof. split; [apply same_refl|reflexivity]. Qed.
Lemma alike_trans p q r : alike p q -> alike q r -> alike p r.
Proof. intros (A & B) (C & D). split; [eapply same_trans; eauto|]. intros i. rewrite D. apply B. Qed.
Lemma alike_asks p q t : alike p q -> asks q t = asks p t.
Proof. intros (_ & A). destruct t; unfold asks; rewrite !A; reflexivity. Qed.

Lemma fid_eq_true i j : fid_eq i j = true -> i = j.
Proof. destruct i, j; cbn; congruence. Qed.

Lemma read_alike i p q b : ps_read i p = (q, b) -> alike p q /\ b = in_force p i.
Proof.
  intros H. pose proof (same_read i p) as S. rewrite H in S. unfold ps_read in H.
  destruct (fault_read (ps_faults p i)) as [f x] eqn:E. injection H as <- <-. split.
  - split; [exact S|]. intros j. unfold in_force. cbn [ps_faults ps_set_faults]. unfold fupd. destruct (fid_eq i j) eqn:Q; [|reflexivity].
    apply fid_eq_true in Q. subst j. replace f with (fst (fault_read (ps_faults p i))) by (rewrite E; reflexivity). exact (read_again _).
  - unfold in_force. rewrite E. reflexivity.
Qed.

Lemma t2_alike p q b : tank2_wants p = (q, b) -> alike p q /\ b = asks p T2.
Proof.
  unfold tank2_wants. destruct (ps_read Tank2Hot p) as [p1 b1] eqn:E1. apply read_alike in E1. destruct E1 as (A1 & ->).
  destruct (in_force p Tank2Hot) eqn:F.
  - intros H. injection H as <- <-. split; [exact A1|]. cbn. rewrite F. reflexivity.
  - intros H. apply read_alike in H. destruct H as (A2 & ->). split; [eapply alike_trans; eauto|]. cbn. rewrite F. apply A1.
Qed.

Lemma cv_alike s p q b : can_venting s p = (q, b) -> alike p q /\ b = s_func s && (asks p T1 || asks p T2).
Proof.
  unfold can_venting. destruct (ps_read Overpressure p) as [p2 b2] eqn:E2. destruct (ps_read Tank2Hot p2) as [p3 b3] eqn:E3.
  destruct (ps_read Tank1Hot p3) as [p4 b4] eqn:E4. apply read_alike in E2, E3, E4.
  destruct E2 as (A2 & ->), E3 as (A3 & ->), E4 as (A4 & ->). intros H. injection H as <- <-.
  split; [eapply alike_trans; [exact A2|eapply alike_trans; eauto]|]. f_equal.
  pose proof (alike_trans _ _ _ A2 A3) as A23. rewrite (proj2 A2), (proj2 A23). cbn.
  destruct (in_force p Overpressure), (in_force p Tank2Hot), (in_force p Tank1Hot); reflexivity.
Qed.

Lemma vs_alike p q b : vent_succeeded p = (q, b) ->
  alike p q /\ b = negb (asks p (if vt_choice (ps_vent p) =? 1 then T1 else T2)).
Proof.
  unfold vent_succeeded. destruct (_ =? 1).
  - destruct (ps_read Tank1Hot p) as [p1 b1] eqn:E. apply read_alike in E. destruct E as (A & ->). intros H. injection H as <- <-. auto.
  - destruct (tank2_wants p) as [p1 b1] eqn:E. apply t2_alike in E. destruct E as (A & ->). intros H. injection H as <- <-. auto.
Qed.

Lemma dft_alike p q t : determine_faulted_tank p = (q, t) -> alike p q /\
  t = (if asks p T1 && asks p T2 then if vt_choice (ps_vent p) =? 1 then 2 else 1 else if asks p T1 then 1 else 2).
Proof.
  unfold determine_faulted_tank. destruct (ps_read Tank1Hot p) as [p1 w1] eqn:E1. apply read_alike in E1. destruct E1 as (A1 & ->).
  change (in_force p Tank1Hot) with (asks p T1). destruct (asks p T1) eqn:F1.
  - destruct (tank2_wants p1) as [p2 w2] eqn:E2. apply t2_alike in E2. destruct E2 as (A2 & ->). rewrite (alike_asks _ _ T2 A1).
    pose proof (alike_trans _ _ _ A1 A2) as A12. destruct (asks p T2); cbn [andb].
    + intros H. injection H as <- <-. split; [exact A12|]. destruct A12 as ((_ & _ & _ & _ & V & _) & _). rewrite V. reflexivity.
    + destruct (ps_read Tank1Hot p2) as [p3 w3] eqn:E3. apply read_alike in E3. destruct E3 as (A3 & ->). intros H. injection H as <- <-.
      split; [eapply alike_trans; eauto|]. change (in_force p2 Tank1Hot) with (asks p2 T1). rewrite (alike_asks _ _ T1 A12), F1. reflexivity.
  - cbn [andb]. destruct (ps_read Tank1Hot p1) as [p3 w3] eqn:E3. apply read_alike in E3. destruct E3 as (A3 & ->). intros H. injection H as <- <-.
    split; [eapply alike_trans; eauto|]. change (in_force p1 Tank1Hot) with (asks p1 T1). rewrite (alike_asks _ _ T1 A1), F1. reflexivity.
Qed.

Lemma hf_alike s p q b : can_handling_fault s p = (q, b) -> alike p q.
Proof.
  unfold can_handling_fault. destruct (was p p_disabled); [intros H; injection H as <- <-; apply alike_refl|].
  destruct (ps_read PressurizeFail p) as [p1 b1] eqn:E1. destruct (ps_read Overpressure p1) as [p2 b2] eqn:E2.
  destruct (ps_read Tank2Hot p2) as [p3 b3] eqn:E3. destruct (ps_read Tank1Hot p3) as [p4 b4] eqn:E4.
  apply read_alike in E1, E2, E3, E4. intros H. injection H as <- <-.
  eapply alike_trans; [apply E1|]. eapply alike_trans; [apply E2|]. eapply alike_trans; [apply E3|]. apply E4.
Qed.
Lemma hf_answer s p q b : can_handling_fault s p = (q, b) -> ps_state p <> p_disabled -> s_func s = true -> asks p T1 || asks p T2 = true -> b = true.
Proof.
  unfold can_handling_fault, was. intros H ND SF AS. destruct (Z.eqb_spec (ps_state p) p_disabled); [contradiction|].
  destruct (ps_read PressurizeFail p) as [p1 b1] eqn:E1. destruct (ps_read Overpressure p1) as [p2 b2] eqn:E2.
  destruct (ps_read Tank2Hot p2) as [p3 b3] eqn:E3. destruct (ps_read Tank1Hot p3) as [p4 b4] eqn:E4.
  apply read_alike in E1, E2, E3, E4. destruct E1 as (A1 & ->), E2 as (A2 & ->), E3 as (A3 & ->), E4 as (A4 & ->).
  pose proof (alike_trans _ _ _ A1 A2) as A12. pose proof (alike_trans _ _ _ A12 A3) as A123.
  injection H as _ <-. rewrite (proj2 A1), (proj2 A12), (proj2 A123), SF. cbn in AS.
  destruct (in_force p PressurizeFail), (in_force p Overpressure), (in_force p Tank2Hot), (in_force p Tank1Hot); try reflexivity. discriminate AS.
Qed.

(** ** The choice of tank *)

(** the number of the chosen tank agrees with the tank operated *)
Definition chosen (p : pst) : Prop := vt_choice (ps_vent p) = match vented p with T1 => 1 | T2 => 2 end.
Lemma chosen_tank p : chosen p -> (if vt_choice (ps_vent p) =? 1 then T1 else T2) = vented p.
Proof. unfold chosen. intros ->. destruct (vented p); reflexivity. Qed.

(** the state entered differs from the state left *)
Lemma enter_not_vent st p : st <> p_venting -> ps_vent (enter st p) = ps_vent p.
Proof.
  intros N. unfold enter. destruct (st =? p_pressurizing); [reflexivity|]. destruct (st =? p_firing); [reflexivity|].
  destruct (Z.eqb_spec st p_venting); [contradiction|]. destruct (_ || _); reflexivity.
Qed.

Lemma enter_vent p : let q := enter p_venting p in
  ps_drv q = ps_drv p /\ (forall i, in_force q i = in_force p i) /\ ps_state q = ps_state p /\
  a_count (vt_act (ps_vent q)) = 0 /\ a_timer (vt_act (ps_vent q)) = 0 /\ vt_saved (ps_vent q) = vt_saved (ps_vent p) /\ chosen q /\
  (chosen p -> vented q = if asks p T1 && asks p T2 then other (vented p) else if asks p T1 then T1 else T2).
Proof.
  cbv zeta. unfold enter. cbn [p_venting Z.eqb p_pressurizing p_firing]. change (p_venting =? p_pressurizing) with false. change (p_venting =? p_firing) with false.
  change (p_venting =? p_venting) with true. cbv iota.
  destruct (determine_faulted_tank p) as [p1 t] eqn:E. apply dft_alike in E. destruct E as (((S1 & _ & _ & _ & S5 & S6) & AL) & ->). cbn.
  split; [exact S6|]. split; [exact AL|]. split; [exact S1|]. rewrite S5. cbv zeta. change (in_force p Tank1Hot) with (asks p T1). change (in_force p Tank2Hot || in_force p Overpressure) with (asks p T2).
  unfold chosen, vented. cbn [ps_vent ps_set_vent].
  destruct (asks p T1) eqn:A1; destruct (asks p T2) eqn:A2; cbn [andb];
    try (destruct (Z.eqb_spec (vt_choice (ps_vent p)) 1)); cbn; repeat (split; [reflexivity|]);
    intros C; rewrite C in *; destruct (vt_tank (ps_vent p)); cbn; try reflexivity; try lia.
Qed.

Lemma evaluate_vent cc c s st q : st <> p_venting ->
  let r := evaluate cc c s st q in
  ps_vent (fst r) = ps_vent q /\ (snd r = p_venting -> st = p_handling_fault /\ alike q (fst r) /\ ps_drv (fst r) = ps_drv q).
Proof.
  intros N. cbv zeta. unfold evaluate.
  destruct (st =? p_idle).
  { pose proof (same_hf s q) as S. destruct (can_handling_fault s q) as [q1 []]; cbn [fst snd] in *; [split; [apply S|discriminate]|].
    destruct (can_pressurizing c s q1); [split; [apply S|discriminate]|]. destruct (can_await_pressurizing c s q1); (split; [apply S|discriminate]). }
  destruct (st =? p_await_pressurizing).
  { pose proof (same_hf s q) as S. destruct (can_handling_fault s q) as [q1 []]; cbn [fst snd] in *; [split; [apply S|discriminate]|].
    destruct (can_pressurizing c s q1); (split; [apply S|discriminate]). }
  destruct (st =? p_pressurizing).
  { unfold eval_pressurizing. destruct (_ <=? 1); [split; [reflexivity|discriminate]|].
    pose proof (same_hf s q) as S. destruct (can_handling_fault s q) as [q1 []]; cbn [fst snd] in *; [split; [apply S|discriminate]|].
    cbv zeta. destruct (s_threshold s); [split; [apply S|discriminate]|]. destruct (negb _); [split; [apply S|discriminate]|].
    destruct (fst (act_run _ _ _ _ _ _ _)) as [[a' d']|]; [split; [apply S|discriminate]|].
    match goal with |- context [ps_read PressurizeFail ?x] => pose proof (same_read PressurizeFail x) as SR; destruct (ps_read PressurizeFail x) as [p4 b] end.
    destruct SR as (_ & _ & _ & _ & SR & _). cbn in SR. destruct S as (_ & _ & _ & _ & S & _).
    destruct b; cbn [fst snd]; (split; [cbn; congruence|discriminate]). }
  destruct (st =? p_await_firing).
  { pose proof (same_hf s q) as S. destruct (can_handling_fault s q) as [q1 []]; cbn [fst snd] in *; [split; [apply S|discriminate]|].
    destruct (_ =? 0); (split; [apply S|discriminate]). }
  destruct (st =? p_firing).
  { pose proof (same_hf s q) as S. destruct (can_handling_fault s q) as [q1 []]; cbn [fst snd] in *; [split; [apply S|discriminate]|].
    destruct (_ =? 0); (split; [apply S|discriminate]). }
  destruct (Z.eqb_spec st p_venting); [contradiction|].
  destruct (Z.eqb_spec st p_handling_fault) as [E|E].
  { destruct (can_venting s q) as [q1 b] eqn:EC. apply cv_alike in EC. destruct EC as (A & _). destruct b; cbn [fst snd].
    - split; [apply A|]. intros _. split; [exact E|]. split; [exact A|apply A].
    - pose proof (same_hf s q1) as S. destruct (can_handling_fault s q1) as [q2 []]; cbn [fst snd] in *; (split; [|discriminate]); destruct (proj1 A) as (_ & _ & _ & _ & V & _); destruct S as (_ & _ & _ & _ & W & _); congruence. }
  destruct (st =? p_manual); cbn; (split; [reflexivity|discriminate]).
Qed.

(** entering *)
Lemma ctrl_enters cc c s p : ps_state p <> p_venting -> ps_state (prop_ctrl cc c s p) = p_venting ->
  let p' := prop_ctrl cc c s p in
  ps_state p = p_handling_fault /\ ps_drv p' = ps_drv p /\ s_func s = true /\ asks p' T1 || asks p' T2 = true /\
  a_count (vt_act (ps_vent p')) = 0 /\ a_timer (vt_act (ps_vent p')) = 0 /\ vt_saved (ps_vent p') = vt_saved (ps_vent p) /\ chosen p' /\
  (chosen p -> vented p' = if asks p' T1 && asks p' T2 then other (vented p) else if asks p' T1 then T1 else T2).
Proof.
  intros N. cbv zeta. rewrite ctrl_finish. destruct (counted_spec cc s p) as (A & _ & _ & _ & E & F). cbv zeta in *.
  generalize dependent (counted cc s p). intros q A E F.
  pose proof (evaluate_vent cc c s (ps_state p) q N) as EV. cbv zeta in EV. pose proof (eval_state cc c s (ps_state p) q) as ES.
  unfold finish. destruct (evaluate cc c s (ps_state p) q) as [p3 next]. cbn [fst snd] in *. destruct EV as (V & G).
  destruct (Z.eqb_spec next (ps_state p)) as [Q|Q]; [intros X; rewrite ES, A in X; contradiction|].
  destruct (can_enter c s next p3) as [p4 ok] eqn:EC. destruct ok; [|intros X; discriminate X].
  intros X. rewrite enter_state in X. cbn in X. subst next. destruct (G eq_refl) as (H1 & H2 & H3).
  change (can_enter c s p_venting p3) with (can_venting s p3) in EC. apply cv_alike in EC. destruct EC as (A4 & AB). symmetry in AB. apply andb_prop in AB.
  destruct AB as (SF & AS).
  pose proof (enter_vent (ps_set_state p4 p_venting)) as EV. cbv zeta in EV. destruct EV as (D & FO & _ & C1 & C2 & C3 & C4 & C5). cbn [ps_drv ps_set_state ps_vent] in D, C3.
  assert (AA : forall t, asks (enter p_venting (ps_set_state p4 p_venting)) t = asks p3 t).
  { intros t. transitivity (asks p4 t); [|apply alike_asks; exact A4]. destruct t; cbn; rewrite !FO; reflexivity. }
  assert (A4' : forall t, asks (ps_set_state p4 p_venting) t = asks p3 t) by (intros t; transitivity (asks p4 t); [destruct t; reflexivity|apply alike_asks; exact A4]).
  destruct (proj1 A4) as (_ & _ & _ & _ & V4 & D4).
  split; [exact H1|]. split; [congruence|]. split; [exact SF|]. rewrite !AA. split; [exact AS|]. split; [exact C1|]. split; [exact C2|].
  split; [congruence|]. split; [exact C4|]. intros CP. rewrite !A4' in C5. rewrite C5.
  - unfold vented. cbn. rewrite V4, V, E. reflexivity.
  - unfold chosen, vented in *. cbn. rewrite V4, V, E. exact CP.
Qed.

(** going anywhere else leaves what venting remembers alone *)
Lemma ctrl_not_vent cc c s p : ps_state p <> p_venting -> ps_state (prop_ctrl cc c s p) <> p_venting -> ps_vent (prop_ctrl cc c s p) = ps_vent p.
Proof.
  intros N. rewrite ctrl_finish. destruct (counted_spec cc s p) as (A & _ & _ & _ & E & _). cbv zeta in *.
  generalize dependent (counted cc s p). intros q A E.
  pose proof (evaluate_vent cc c s (ps_state p) q N) as EV. cbv zeta in EV.
  unfold finish. destruct (evaluate cc c s (ps_state p) q) as [p3 next]. cbn [fst snd] in *. destruct EV as (V & G).
  destruct (Z.eqb_spec next (ps_state p)) as [Q|Q]; [congruence|].
  pose proof (same_can c s next p3) as S. destruct (can_enter c s next p3) as [p4 ok]. cbn [fst] in S. destruct S as (_ & _ & _ & _ & S & _).
  destruct ok; [|cbn; congruence]. intros X. rewrite enter_state in X. cbn in X. rewrite enter_not_vent by exact X. cbn. congruence.
Qed.

(** ** One cycle of venting *)
Definition next_of (c : pcfg) (p : pst) : nat := match vented p with T1 => c_t1_valve c | T2 => Z.to_nat (vt_saved (ps_vent p) mod 4) end.

Lemma ctrl_venting cc c s p : ps_state p = p_venting -> chosen p ->
  let p' := prop_ctrl cc c s p in
  let t := vented p in
  vented p' = t /\ chosen p' /\
  (asks p' t = false -> ps_state p' = (if s_func s then p_idle else p_disabled) /\ vt_saved (ps_vent p') = vt_saved (ps_vent p) /\
     ps_drv p' = drv_valve t (a_valve (vt_act (ps_vent p))) false (ps_drv p)) /\
  (asks p' t = true ->
   match act_run t (next_of c p) (c_fill c) (c_close c) (c_max_vent c) (ticked (vt_act (ps_vent p))) (ps_drv p) with
   | (Some (a', d'), started) => ps_state p' = p_venting /\ ps_drv p' = d' /\ vt_act (ps_vent p') = a' /\
       vt_saved (ps_vent p') = (match t with T1 => vt_saved (ps_vent p) | T2 => if started then u32 (vt_saved (ps_vent p) + 1) else vt_saved (ps_vent p) end)
   | (None, _) => vt_saved (ps_vent p') = vt_saved (ps_vent p) /\ (ps_drv p' = ps_drv p \/ safe (ps_drv p')) /\
       ps_state p' = (if s_func s && ((c_max_vent c =? 1) || asks p' (other t)) then p_handling_fault else p_disabled)
   end).
Proof.
  intros HS HC. cbv zeta. rewrite ctrl_finish, HS. destruct (counted_spec cc s p) as (A & _ & _ & _ & E & F). cbv zeta in *.
  assert (VQ : vented (counted cc s p) = vented p) by (unfold vented; rewrite E; reflexivity).
  assert (CQ : chosen (counted cc s p)) by (unfold chosen in *; rewrite VQ, E; exact HC).
  unfold next_of. rewrite <- VQ, <- E, <- F. rewrite HS in A. clear HS HC E F VQ. generalize dependent (counted cc s p). clear p. intros p HS HC.
  change (evaluate cc c s p_venting p) with (eval_venting c p). unfold eval_venting. cbv zeta.
  match goal with |- context [vent_succeeded ?x] => destruct (vent_succeeded x) as [q ok] eqn:EV; apply vs_alike in EV; set (x0 := x) in * end.
  change (vt_choice (ps_vent x0)) with (vt_choice (ps_vent p)) in EV. rewrite (chosen_tank p HC) in EV. destruct EV as (AL & ->).
  assert (AX : forall t, asks x0 t = asks p t) by (intros []; reflexivity). rewrite AX.
  destruct (proj1 AL) as (S1 & S2 & S3 & S4 & S5 & S6). cbn in S1, S2, S3, S4, S5, S6.
  assert (AQ : forall t, asks q t = asks p t) by (intros t; rewrite (alike_asks _ _ t AL); apply AX).
  unfold finish.
  assert (AS : forall r t, ps_faults r = ps_faults q -> asks r t = asks p t) by (intros r t R; rewrite <- AQ; destruct t; unfold asks, in_force; rewrite R; reflexivity).
  destruct (asks p (vented p)) eqn:AP; cbn [negb]; cycle 1.
  { (* the fault is gone *)
    change (p_idle =? p_venting) with false. cbv iota.
    match goal with |- context [can_enter c s p_idle ?x] => change (can_enter c s p_idle x) with (x, s_func s) end. cbv iota beta.
    assert (G : forall r, ps_vent r = ps_vent q -> ps_faults r = ps_faults q -> ps_drv r = drv_valve (vt_tank (ps_vent p)) (a_valve (vt_act (ps_vent p))) false (ps_drv q) ->
      ps_state r = (if s_func s then p_idle else p_disabled) ->
      vented r = vented p /\ chosen r /\ (asks r (vented p) = false -> ps_state r = (if s_func s then p_idle else p_disabled) /\ vt_saved (ps_vent r) = vt_saved (ps_vent p) /\
        ps_drv r = drv_valve (vented p) (a_valve (vt_act (ps_vent p))) false (ps_drv p)) /\ asks r (vented p) = false).
    { intros r R1 R2 R3 R4. unfold chosen, vented in *. rewrite R1, S5. cbn. split; [reflexivity|]. split; [exact HC|]. split.
      - intros _. split; [exact R4|]. split; [reflexivity|]. rewrite R3, S6. reflexivity.
      - rewrite AS by exact R2. exact AP. }
    destruct (s_func s).
    - match goal with |- context [enter p_idle ?z] => change (enter p_idle z) with z end.
      match goal with |- context [ps_set_state ?x p_idle] => destruct (G (ps_set_state x p_idle)) as (G1 & G2 & G3 & G4); [reflexivity|reflexivity|reflexivity|reflexivity|] end.
      split; [exact G1|]. split; [exact G2|]. split; [exact G3|]. intros X. congruence.
    - match goal with |- context [ps_set_state ?x p_disabled] => destruct (G (ps_set_state x p_disabled)) as (G1 & G2 & G3 & G4); [reflexivity|reflexivity|reflexivity|reflexivity|] end.
      split; [exact G1|]. split; [exact G2|]. split; [exact G3|]. intros X. congruence. }
  assert (NV : (if vt_choice (ps_vent p) =? 1 then c_t1_valve c else Z.to_nat (vt_saved (ps_vent p) mod 4)) =
               match vented p with T1 => c_t1_valve c | T2 => Z.to_nat (vt_saved (ps_vent p) mod 4) end).
  { unfold chosen in HC. rewrite HC. destruct (vented p); reflexivity. }
  rewrite NV, S6. change (vt_tank (ps_vent p)) with (vented p).
  change (mk_a (a_count (vt_act (ps_vent p))) (a_valve (vt_act (ps_vent p))) (timer_tick (a_timer (vt_act (ps_vent p))))) with (ticked (vt_act (ps_vent p))).
  set (nv := match vented p with T1 => c_t1_valve c | T2 => Z.to_nat (vt_saved (ps_vent p) mod 4) end).
  destruct (act_run (vented p) nv (c_fill c) (c_close c) (c_max_vent c) (ticked (vt_act (ps_vent p))) (ps_drv p)) as [[[a' d']|] st] eqn:AR.
  { change (p_venting =? p_venting) with true. cbv iota.
    unfold chosen. unfold vented at 1 2. cbn [ps_vent ps_set_drv ps_set_vent vt_tank vt_choice ps_state ps_drv vt_act vt_saved].
    split; [reflexivity|]. split; [exact HC|]. split; [intros X; rewrite AS in X by reflexivity; congruence|]. intros _.
    split; [congruence|]. split; [reflexivity|]. split; [reflexivity|]. unfold chosen in HC. rewrite HC. destruct (vented p), st; reflexivity. }
  (* out of cycles *)
  assert (G : forall r next, ps_vent r = ps_vent q -> ps_drv r = ps_drv p -> ps_state r = ps_state p -> alike q r ->
     next = (if (c_max_vent c =? 1) || asks p (other (vented p)) then p_handling_fault else p_disabled) ->
     let p' := (if next =? p_venting then r else let '(p4, ok) := can_enter c s next r in if ok then enter next (ps_set_state p4 next) else ps_set_state p4 p_disabled) in
     vented p' = vented p /\ chosen p' /\ (forall t, asks p' t = asks p t) /\ vt_saved (ps_vent p') = vt_saved (ps_vent p) /\
     (ps_drv p' = ps_drv p \/ safe (ps_drv p')) /\
     ps_state p' = (if s_func s && ((c_max_vent c =? 1) || asks p (other (vented p))) then p_handling_fault else p_disabled)).
  { intros r next R1 R2 R3 R4 R5. cbv zeta.
    assert (VR : forall z, ps_vent z = ps_vent r -> vented z = vented p /\ chosen z /\ vt_saved (ps_vent z) = vt_saved (ps_vent p)).
    { intros z Z1. unfold vented, chosen, vented in *. rewrite Z1, R1, S5. cbn. auto. }
    assert (AR2 : forall z t, ps_faults z = ps_faults r -> asks z t = asks p t).
    { intros z t Z1. rewrite <- AQ, <- (alike_asks _ _ t R4). destruct t; unfold asks, in_force; rewrite Z1; reflexivity. }
    destruct ((c_max_vent c =? 1) || asks p (other (vented p))); subst next.
    - change (p_handling_fault =? p_venting) with false. cbv iota.
      change (can_enter c s p_handling_fault r) with (can_handling_fault s r).
      destruct (can_handling_fault s r) as [p4 b] eqn:EH.
      assert (BB : b = s_func s).
      { destruct (s_func s) eqn:SF.
        - apply (hf_answer _ _ _ _ EH); [rewrite R3, HS; discriminate|exact SF|]. rewrite (AR2 r T1), (AR2 r T2) by reflexivity. revert AP. destruct (vented p); intros AP; rewrite AP; [reflexivity|apply orb_true_r].
        - unfold can_handling_fault in EH. revert EH. destruct (was r p_disabled); [intros H; injection H as _ <-; reflexivity|]. reads. rewrite SF. intros H. injection H as _ <-. reflexivity. }
      apply hf_alike in EH. destruct (proj1 EH) as (_ & _ & _ & _ & V4 & D4). subst b. rewrite andb_true_r.
      assert (A4 : forall z t, ps_faults z = ps_faults p4 -> asks z t = asks p t).
      { intros z t Z1. transitivity (asks p4 t); [destruct t; unfold asks, in_force; rewrite Z1; reflexivity|]. rewrite (alike_asks _ _ t EH). apply AR2. reflexivity. }
      destruct (s_func s).
      + match goal with |- context [enter p_handling_fault ?z] => change (enter p_handling_fault z) with z end.
        destruct (VR (ps_set_state p4 p_handling_fault) V4) as (V1 & V2 & V3). split; [exact V1|]. split; [exact V2|]. split; [intros t; apply A4; reflexivity|].
        split; [exact V3|]. split; [left; cbn; congruence|reflexivity].
      + destruct (VR (ps_set_state p4 p_disabled) V4) as (V1 & V2 & V3). split; [exact V1|]. split; [exact V2|]. split; [intros t; apply A4; reflexivity|].
        split; [exact V3|]. split; [left; cbn; congruence|reflexivity].
    - change (p_disabled =? p_venting) with false. cbv iota. change (can_enter c s p_disabled r) with (r, true). cbv iota beta.
      change (enter p_disabled (ps_set_state r p_disabled)) with (ps_set_drv (ps_set_state r p_disabled) (drv_reset (ps_drv r))).
      match goal with |- vented ?z = _ /\ _ => destruct (VR z eq_refl) as (V1 & V2 & V3) end. split; [exact V1|]. split; [exact V2|]. split; [intros t; apply AR2; reflexivity|].
      split; [exact V3|]. split; [right; apply reset_safe|]. rewrite andb_false_r. reflexivity. }
  cbv zeta in G.
  assert (FIN : forall p', (vented p' = vented p /\ chosen p' /\ (forall t, asks p' t = asks p t) /\ vt_saved (ps_vent p') = vt_saved (ps_vent p) /\
     (ps_drv p' = ps_drv p \/ safe (ps_drv p')) /\
     ps_state p' = (if s_func s && ((c_max_vent c =? 1) || asks p (other (vented p))) then p_handling_fault else p_disabled)) ->
     vented p' = vented p /\ chosen p' /\
     (asks p' (vented p) = false -> ps_state p' = (if s_func s then p_idle else p_disabled) /\ vt_saved (ps_vent p') = vt_saved (ps_vent p) /\
        ps_drv p' = drv_valve (vented p) (a_valve (vt_act (ps_vent p))) false (ps_drv p)) /\
     (asks p' (vented p) = true -> vt_saved (ps_vent p') = vt_saved (ps_vent p) /\ (ps_drv p' = ps_drv p \/ safe (ps_drv p')) /\
       ps_state p' = (if s_func s && ((c_max_vent c =? 1) || asks p' (other (vented p))) then p_handling_fault else p_disabled))).
  { intros p' (P1 & P2 & P3 & P4 & P5 & P6). split; [exact P1|]. split; [exact P2|]. split; [intros X; rewrite P3 in X; congruence|].
    intros _. rewrite P3. auto. }
  apply FIN. clear FIN.
  destruct (c_max_vent c =? 1) eqn:EM.
  { apply G; auto using alike_refl; congruence. }
  cbn [orb] in G.
  unfold chosen in HC. rewrite HC.
  destruct (vented p) eqn:VP; cbn [Z.eqb Pos.eqb other].
  - destruct (tank2_wants q) as [q2 x] eqn:E2. apply t2_alike in E2. destruct E2 as (A2 & ->). rewrite AQ, orb_false_r in *. cbn [other] in G.
    destruct (proj1 A2) as (T1' & _ & _ & _ & T5 & T6).
    specialize (G q2). destruct (asks p T2); apply G; auto; congruence.
  - destruct (ps_read Tank1Hot q) as [q2 x] eqn:E2. apply read_alike in E2. destruct E2 as (A2 & ->). change (in_force q Tank1Hot) with (asks q T1). rewrite AQ in *. cbn [orb other] in *.
    destruct (proj1 A2) as (T1' & _ & _ & _ & T5 & T6).
    specialize (G q2). destruct (asks p T1); apply G; auto; congruence.
Qed.

(** ** Runs *)
Lemma chosen_step cc c s p : chosen p -> chosen (prop_ctrl cc c s p).
Proof.
  intros H. destruct (Z.eq_dec (ps_state p) p_venting) as [E|E]; [apply (ctrl_venting cc c s p E H)|].
  destruct (Z.eq_dec (ps_state (prop_ctrl cc c s p)) p_venting) as [E2|E2]; [apply (ctrl_enters cc c s p E E2)|].
  unfold chosen, vented in *. rewrite (ctrl_not_vent cc c s p E E2). exact H.
Qed.
Lemma chosen_between who p p1 : between who p p1 -> chosen p -> chosen p1 /\ vented p1 = vented p.
Proof. intros (_ & _ & V & _) H. unfold chosen, vented in *. rewrite V. auto. Qed.
Lemma chosen_run st l p : prun (pst_init st) l p -> chosen p.
Proof. induction 1 as [|l p who p1 cc c s HR IH HB]; [reflexivity|]. apply chosen_step, (chosen_between who p p1 HB IH). Qed.
Lemma chosen_before st y l p : prun (pst_init st) (y :: l) p -> chosen (y_before y) /\ p = y_after y /\ y_after y = prop_ctrl (y_cc y) (y_cfg y) (y_sens y) (y_before y).
Proof.
  intros H. inversion H as [|l0 q who p1 cc c s HR HB]; subst. cbn. split; [|auto]. eapply chosen_between; [exact HB|]. eapply chosen_run; eauto.
Qed.

(** which tank: C175 *)
Lemma venting_relieves st y l p : prun (pst_init st) (y :: l) p ->
  ps_state (y_before y) <> p_venting -> ps_state (y_after y) = p_venting ->
  asks (y_after y) (vented (y_after y)) = true /\
  (asks (y_after y) T1 = true -> asks (y_after y) T2 = true -> vented (y_after y) = other (vented (y_before y))) /\
  ps_drv (y_after y) = ps_drv (y_before y).
Proof.
  intros H N V. destruct (chosen_before _ _ _ _ H) as (C & -> & E). rewrite E in *.
  pose proof (ctrl_enters _ _ _ _ N V) as (_ & D & _ & A & _ & _ & _ & _ & G). cbv zeta in *. specialize (G C). rewrite G.
  destruct (asks _ T1) eqn:A1, (asks _ T2) eqn:A2; cbn [andb orb] in *; try discriminate A.
  - split; [destruct (vented (y_before y)); assumption|]. auto.
  - split; [exact A1|]. split; [discriminate|exact D].
  - split; [exact A2|]. split; [discriminate|exact D].
Qed.

Lemma set_nth_other {A} (l : list A) i j x : i <> j -> nth_error (set_nth l i x) j = nth_error l j.
Proof.
  unfold set_nth. revert i j. induction l as [|a l IH]; intros i j N; [destruct i, j; reflexivity|].
  destruct i as [|i], j as [|j]; cbn; try reflexivity; try contradiction.
  - destruct (upd l i x); reflexivity.
  - specialize (IH i j). destruct (upd l i x); cbn; [apply IH; congruence|reflexivity].
Qed.
Lemma open_valve_eq t i d u j : drv_is_open u j (drv_valve t i true d) = true -> drv_is_open u j d = true \/ (u = t /\ j = i).
Proof.
  unfold drv_is_open. destruct t, u; cbn; auto; (destruct (Nat.eq_dec i j) as [->|N]; [auto|rewrite set_nth_other by exact N; auto]).
Qed.
Lemma close_valve_eq t i d u j : drv_is_open u j (drv_valve t i false d) = true -> drv_is_open u j d = true.
Proof.
  assert (X : forall l, match nth_error (set_nth l i false) j with Some b => b | None => false end = true -> match nth_error l j with Some b => b | None => false end = true).
  { intros l H. destruct (nth_error (set_nth l i false) j) as [[]|] eqn:E; try discriminate H. apply set_nth_open in E.
    destruct E as [(_ & E)|(_ & E)]; [discriminate E|rewrite E; reflexivity]. }
  unfold drv_is_open. destruct t, u; cbn; auto.
Qed.
Lemma safe_shut d t i : safe d -> drv_is_open t i d = true -> False.
Proof.
  intros (A & B & _). unfold drv_is_open. unfold all_closed in *. rewrite Forall_forall in A, B.
  destruct t; destruct (nth_error _ i) eqn:E; try discriminate; intros ->; apply nth_error_In in E; [apply A in E|apply B in E]; discriminate.
Qed.

(** what a cycle that began venting does with the valves *)
Lemma venting_opens st y l p t i : prun (pst_init st) (y :: l) p -> ps_state (y_before y) = p_venting ->
  opens (ps_drv (y_before y)) (ps_drv (y_after y)) t i ->
  t = vented (y_before y) /\ asks (y_after y) t = true /\ ps_state (y_after y) = p_venting /\
  a_count (vt_act (ps_vent (y_before y))) < c_max_vent (y_cfg y) /\
  a_count (vt_act (ps_vent (y_after y))) = u32 (a_count (vt_act (ps_vent (y_before y))) + 1) /\
  i = match t with T1 => c_t1_valve (y_cfg y) | T2 => Z.to_nat (vt_saved (ps_vent (y_before y)) mod 4) end.
Proof.
  intros H V (O1 & O2). destruct (chosen_before _ _ _ _ H) as (C & -> & E). rewrite E in *.
  pose proof (ctrl_venting (y_cc y) (y_cfg y) (y_sens y) _ V C) as (_ & _ & G1 & G2). cbv zeta in *.
  destruct (asks _ (vented (y_before y))) eqn:A; cycle 1.
  { exfalso. destruct (G1 eq_refl) as (_ & _ & D). rewrite D in O2. apply close_valve_eq in O2. congruence. }
  specialize (G2 eq_refl). clear G1. unfold act_run in G2.
  destruct (drv_is_open (vented (y_before y)) _ _).
  { destruct (_ =? 0).
    - destruct G2 as (_ & D & _). rewrite D in O2. apply close_valve_eq in O2. congruence.
    - destruct G2 as (_ & D & _). rewrite D in O2. congruence. }
  destruct (_ =? 0); [|destruct G2 as (_ & D & _); rewrite D in O2; congruence].
  destruct (Z.leb_spec (c_max_vent (y_cfg y)) (a_count (ticked (vt_act (ps_vent (y_before y)))))) as [L|L].
  { exfalso. destruct G2 as (_ & [D|D] & _); [rewrite D in O2; congruence|eapply safe_shut; eauto]. }
  destruct G2 as (S & D & A1 & _). rewrite D in O2. apply open_valve_eq in O2. destruct O2 as [O2|(-> & ->)]; [congruence|].
  split; [reflexivity|]. split; [exact A|]. split; [exact S|]. split; [exact L|]. split; [rewrite A1; reflexivity|]. reflexivity.
Qed.

(** venting stops when its tank no longer asks, or after the configured number of openings *)
Lemma venting_stops st y l p : prun (pst_init st) (y :: l) p -> ps_state (y_before y) = p_venting ->
  let t := vented (y_before y) in
  (asks (y_after y) t = false -> ps_state (y_after y) = if s_func (y_sens y) then p_idle else p_disabled) /\
  (asks (y_after y) t = true -> ps_state (y_after y) <> p_venting ->
     c_max_vent (y_cfg y) <= a_count (vt_act (ps_vent (y_before y))) /\
     ps_state (y_after y) = if s_func (y_sens y) && ((c_max_vent (y_cfg y) =? 1) || asks (y_after y) (other t)) then p_handling_fault else p_disabled).
Proof.
  intros H V. destruct (chosen_before _ _ _ _ H) as (C & -> & E). rewrite E in *.
  pose proof (ctrl_venting (y_cc y) (y_cfg y) (y_sens y) _ V C) as (_ & _ & G1 & G2). cbv zeta in *.
  split; [intros A; apply (G1 A)|]. intros A N. specialize (G2 A). unfold act_run in G2.
  destruct (drv_is_open _ _ _). { destruct (_ =? 0); destruct G2 as (S & _); contradiction. }
  destruct (a_timer _ =? 0); [|destruct G2 as (S & _); contradiction].
  destruct (Z.leb_spec (c_max_vent (y_cfg y)) (a_count (ticked (vt_act (ps_vent (y_before y)))))) as [L|L]; [|destruct G2 as (S & _); contradiction].
  split; [exact L|]. apply G2.
Qed.

(** ** The numbers of valves never change *)
Definition lens (d : drv) : nat * nat := (length (d_t1 d), length (d_t2 d)).
Local Arguments lens : simpl never.
Lemma set_nth_length {A} (l : list A) i x : length (set_nth l i x) = length l.
Proof.
  unfold set_nth. revert i. induction l as [|a l IH]; intros [|i]; cbn; try reflexivity.
  specialize (IH i). destruct (upd l i x); cbn; congruence.
Qed.
Lemma lens_valve t i b d : lens (drv_valve t i b d) = lens d.
Proof. unfold lens. destruct t; cbn; rewrite set_nth_length; reflexivity. Qed.
Lemma lens_disable d : lens (drv_disable d) = lens d.
Proof. unfold lens. cbn. rewrite map_length. reflexivity. Qed.
Lemma lens_reset d : lens (drv_reset d) = lens d.
Proof. unfold drv_reset, drv_clear, lens. cbn. rewrite !map_length. reflexivity. Qed.
Lemma lens_schedule l d : lens (fst (drv_set_schedule l d)) = lens d.
Proof. unfold drv_set_schedule. destruct (d_on d); [reflexivity|]. destruct (existsb _ l); reflexivity. Qed.
Lemma lens_start d : lens (drv_start d) = lens d.
Proof. unfold drv_start. destruct (d_on d); [apply lens_disable|reflexivity]. Qed.
Lemma valve_loop_length vs : forall did ss, length (fst (valve_loop did vs ss)) = length vs.
Proof.
  induction vs as [|v vs IH]; intros did [|s ss]; cbn; try reflexivity. destruct (s <? 3).
  - specialize (IH did ss). destruct (v || _), (valve_loop did vs ss); cbn in *; congruence.
  - destruct (negb v && negb did); [specialize (IH true ss); destruct (valve_loop true vs ss)|specialize (IH did ss); destruct (valve_loop did vs ss)]; cbn in *; congruence.
Qed.
Lemma lens_tick d : lens (drv_tick d) = lens d.
Proof.
  unfold drv_tick, thrust_valve_loop. destruct (d_on d); [|reflexivity]. pose proof (valve_loop_length (d_t2 d) false (d_sched d)) as H.
  destruct (valve_loop _ _ _). unfold lens. cbn in *. congruence.
Qed.
Lemma lens_ticks n d : lens (after_ticks n d) = lens d.
Proof. induction n as [|n IH]; [reflexivity|]. cbn. rewrite lens_tick. exact IH. Qed.
Lemma lens_act t nv f cl mx a d a' d' st : act_run t nv f cl mx a d = (Some (a', d'), st) -> lens d' = lens d.
Proof.
  unfold act_run. destruct (drv_is_open t (a_valve a) d), (a_timer a =? 0); try (destruct (mx <=? a_count a)); intros H; try discriminate H; injection H as _ <- _; rewrite ?lens_valve; reflexivity.
Qed.
Local Arguments drv_reset : simpl never.
Local Arguments drv_valve : simpl never.
Local Arguments drv_disable : simpl never.
Local Arguments drv_set_schedule : simpl never.
Local Arguments drv_start : simpl never.
Lemma lens_enter st p : lens (ps_drv (enter st p)) = lens (ps_drv p).
Proof.
  unfold enter. destruct (st =? p_pressurizing); [reflexivity|]. destruct (st =? p_firing); [apply lens_start|]. destruct (st =? p_venting).
  - pose proof (same_dft p) as S. destruct (determine_faulted_tank p) as [q t]. destruct S as (_ & _ & _ & _ & _ & S). cbn in *. rewrite S. reflexivity.
  - destruct (_ || _); [reflexivity|apply lens_reset].
Qed.
Lemma lens_eval cc c s st q : lens (ps_drv (fst (evaluate cc c s st q))) = lens (ps_drv q).
Proof.
  assert (SD : forall a b, same a b -> ps_drv b = ps_drv a) by (intros a b S; apply S).
  unfold evaluate.
  destruct (st =? p_idle).
  { pose proof (SD _ _ (same_hf s q)) as S. destruct (can_handling_fault s q) as [q1 []]; cbn [fst snd] in *; [congruence|].
    destruct (can_pressurizing c s q1); [cbn; congruence|]. destruct (can_await_pressurizing c s q1); cbn; congruence. }
  destruct (st =? p_await_pressurizing).
  { pose proof (SD _ _ (same_hf s q)) as S. destruct (can_handling_fault s q) as [q1 []]; cbn [fst snd] in *; [congruence|].
    destruct (can_pressurizing c s q1); cbn; congruence. }
  destruct (st =? p_pressurizing).
  { unfold eval_pressurizing. destruct (_ <=? 1); [apply lens_reset|].
    pose proof (SD _ _ (same_hf s q)) as S. destruct (can_handling_fault s q) as [q1 []]; cbn [fst snd] in *; [cbn; rewrite lens_reset; congruence|].
    cbv zeta. destruct (s_threshold s); [cbn; rewrite (lens_valve T1); congruence|]. destruct (negb _); [cbn; congruence|].
    destruct (act_run T1 _ _ _ _ _ _) as [[[a' d']|] x] eqn:AR; cbn [fst].
    { apply lens_act in AR. cbn in *. congruence. }
    match goal with |- context [ps_read PressurizeFail ?x] => pose proof (SD _ _ (same_read PressurizeFail x)) as SR; destruct (ps_read PressurizeFail x) as [p4 b] end.
    cbn in SR. destruct b; cbn; rewrite ?lens_reset; congruence. }
  destruct (st =? p_await_firing).
  { pose proof (SD _ _ (same_hf s q)) as S. destruct (can_handling_fault s q) as [q1 []]; cbn [fst snd] in *; [congruence|].
    destruct (_ =? 0); cbn; [rewrite lens_schedule|]; congruence. }
  destruct (st =? p_firing).
  { pose proof (SD _ _ (same_hf s q)) as S. destruct (can_handling_fault s q) as [q1 []]; cbn [fst snd] in *; [cbn; rewrite lens_reset; congruence|].
    destruct (_ =? 0); cbn; rewrite ?lens_disable; congruence. }
  destruct (st =? p_venting).
  { destruct (vent_cases c q) as (r & _ & _ & D & _ & _ & [EV|EV]); [rewrite EV; cbn; apply lens_valve|].
    match type of EV with match ?x with _ => _ end => destruct x as [[[a' d']|] b] eqn:AE end.
    - rewrite EV. cbn. apply lens_act in AE. exact AE.
    - destruct EV as [EV|(_ & EV)]; rewrite EV; cbn; congruence. }
  destruct (st =? p_handling_fault).
  { pose proof (SD _ _ (same_cv s q)) as S. destruct (can_venting s q) as [q1 []]; cbn [fst snd] in *; [congruence|].
    pose proof (SD _ _ (same_hf s q1)) as S2. destruct (can_handling_fault s q1) as [q2 []]; cbn [fst snd] in *; congruence. }
  destruct (st =? p_manual); cbn.
  - unfold eval_manual. cbn [ps_drv ps_set_drv]. rewrite !lens_valve. reflexivity.
  - apply lens_reset.
Qed.
Lemma lens_ctrl cc c s p : lens (ps_drv (prop_ctrl cc c s p)) = lens (ps_drv p).
Proof.
  rewrite ctrl_finish. destruct (counted_spec cc s p) as (_ & _ & _ & _ & _ & F). cbv zeta in F. rewrite <- F.
  pose proof (lens_eval cc c s (ps_state p) (counted cc s p)) as L. unfold finish. destruct (evaluate _ _ _ _ _) as [p3 next]. cbn [fst] in L.
  destruct (next =? ps_state p); [exact L|]. pose proof (same_can c s next p3) as S. destruct (can_enter c s next p3) as [p4 ok]. cbn [fst] in S.
  destruct S as (_ & _ & _ & _ & _ & S). destruct ok; [rewrite lens_enter|]; cbn; congruence.
Qed.
Lemma lens_run st l p : prun (pst_init st) l p -> lens (ps_drv p) = (2, 4)%nat.
Proof.
  induction 1 as [|l p who p1 cc c s HR IH HB]; [reflexivity|]. rewrite lens_ctrl. destruct HB as ((n & D) & _). rewrite D, lens_ticks. exact IH.
Qed.

(** ** Thrusters take turns *)
Lemma none_is_open d t i : none_open (match t with T1 => d_t1 d | T2 => d_t2 d end) -> drv_is_open t i d = false.
Proof. intros H. unfold drv_is_open. destruct t; destruct (nth_error _ i) as [[]|] eqn:E; try reflexivity; destruct (H i E). Qed.
Lemma newly_none d d' : (forall i, drv_is_open T2 i d' = true -> drv_is_open T2 i d = true) -> newly_open d d' = [].
Proof.
  intros H. unfold newly_open. generalize [0; 1; 2; 3]%nat. intros l. induction l as [|i l IH]; [reflexivity|]. cbn.
  destruct (drv_is_open T2 i d') eqn:E; [rewrite (H i E)|rewrite andb_false_r]; exact IH.
Qed.
Lemma newly_one d k : none_open (d_t2 d) -> length (d_t2 d) = 4%nat -> (k < 4)%nat -> newly_open d (drv_valve T2 k true d) = [k].
Proof.
  intros N L K. unfold newly_open, drv_is_open. change (d_t2 (drv_valve T2 k true d)) with (set_nth (d_t2 d) k true).
  destruct (d_t2 d) as [|a [|b [|e [|f [|g r]]]]]; try discriminate L.
  assert (X : a = false /\ b = false /\ e = false /\ f = false).
  { repeat split; [pose proof (N 0%nat)|pose proof (N 1%nat)|pose proof (N 2%nat)|pose proof (N 3%nat)]; cbn in *;
      [destruct a|destruct b|destruct e|destruct f]; congruence. }
  destruct X as (-> & -> & -> & ->). do 4 (destruct k as [|k]; [reflexivity|]). lia.
Qed.

Lemma u32_count n : u32 (u32 n + 1) = u32 (n + 1).
Proof. unfold u32, uwrap. apply Zplus_mod_idemp_l. Qed.
Lemma u32_turn n : u32 (Z.of_nat n) mod 4 = Z.of_nat (n mod 4).
Proof. rewrite Nat2Z.inj_mod. unfold u32, uwrap. change (2 ^ 32) with 4294967296. change (Z.of_nat 4) with 4. lia. Qed.

Lemma thrusters_turns l p : prun (pst_init p_disabled) l p -> Forall (fun y => y_who y <> Ground) l ->
  vt_saved (ps_vent p) = u32 (Z.of_nat (length (thrusters_vented l))) /\
  thrusters_vented l = map (fun k => (k mod 4)%nat) (seq 0 (length (thrusters_vented l))).
Proof.
  induction 1 as [|l p who p1 cc c s HR IH HB]; intros NG; [auto|].
  inversion_clear NG as [|? ? G1 G2]. cbn in G1. destruct (IH G2) as (I1 & I2). clear IH.
  assert (VI : valve_inv p) by (apply (run_inv _ _ _ HR G2), quiet_inv; [split; [|split]; [intros [|[|[|]]]|intros [|[|[|[|[|]]]]]|]; discriminate || reflexivity|discriminate]).
  destruct (chosen_between who p p1 HB (chosen_run _ _ _ HR)) as (C1 & V1).
  assert (SV : vt_saved (ps_vent p1) = vt_saved (ps_vent p)) by (destruct HB as (_ & _ & V & _); rewrite V; reflexivity).
  assert (NOT : forall v, v = vt_saved (ps_vent p) -> v = u32 (Z.of_nat (length (thrusters_vented l ++ []))) /\ thrusters_vented l ++ [] = map (fun k => (k mod 4)%nat) (seq 0 (length (thrusters_vented l ++ [])))).
  { intros v ->. rewrite app_nil_r. auto. }
  cbn [thrusters_vented y_before y_after].
  destruct (Z.eqb_spec (ps_state p1) p_venting) as [E|E]; cycle 1.
  { apply NOT. rewrite <- SV. destruct (Z.eq_dec (ps_state (prop_ctrl cc c s p1)) p_venting) as [E2|E2]; [apply (ctrl_enters cc c s p1 E E2)|].
    rewrite (ctrl_not_vent cc c s p1 E E2). reflexivity. }
  pose proof (ctrl_venting cc c s p1 E C1) as (_ & _ & H1 & H2). cbv zeta in H1, H2.
  destruct (asks (prop_ctrl cc c s p1) (vented p1)); cycle 1.
  { destruct (H1 eq_refl) as (_ & S & D). rewrite D, newly_none by (intros i; apply close_valve_eq). apply NOT. congruence. }
  specialize (H2 eq_refl). clear H1.
  destruct (act_run _ _ _ _ _ _ _) as [[[a' d']|] started] eqn:AR; cycle 1.
  { destruct H2 as (S & [D|D] & _).
    - rewrite D, newly_none by auto. apply NOT. congruence.
    - rewrite newly_none by (intros i X; destruct (safe_shut _ _ _ D X)). apply NOT. congruence. }
  destruct H2 as (_ & D & _ & S). rewrite D. unfold act_run in AR.
  destruct (drv_is_open (vented p1) (a_valve (ticked (vt_act (ps_vent p1)))) (ps_drv p1)) eqn:OP.
  { destruct (_ =? 0); injection AR as _ <- <-.
    - rewrite newly_none by (intros i; apply close_valve_eq). apply NOT. rewrite S. destruct (vented p1); exact SV.
    - rewrite newly_none by auto. apply NOT. rewrite S. destruct (vented p1); exact SV. }
  destruct (_ =? 0); cycle 1.
  { injection AR as _ <- <-. rewrite newly_none by auto. apply NOT. rewrite S. destruct (vented p1); exact SV. }
  destruct (_ <=? _); [discriminate|]. injection AR as _ <- <-.
  unfold next_of in *. destruct (vented p1) eqn:VT.
  { rewrite newly_none; [apply NOT; congruence|]. intros i. unfold drv_is_open, drv_valve. cbn. auto. }
  assert (Q : quiet (ps_drv p1)).
  { destruct (between_inv who p p1 G1 HB VI) as [I|I]; [|unfold is_disabled in I; rewrite E in I; unfold p_venting in I; lia].
    unfold valve_inv in I. rewrite E in I. cbn in I. unfold vented in VT. rewrite VT in I. eapply single_shut; [exact I|exact OP]. }
  assert (L4 : length (d_t2 (ps_drv p1)) = 4%nat).
  { pose proof (lens_run _ _ _ HR) as LR. destruct HB as ((n & DD) & _). rewrite <- (lens_ticks n), <- DD in LR. unfold lens in LR. congruence. }
  rewrite newly_one; [|apply Q|exact L4|lia]. rewrite app_length. cbn [length]. rewrite S, SV, I1. split.
  - rewrite Nat2Z.inj_add. apply u32_count.
  - rewrite Nat.add_1_r. rewrite seq_S, map_app, <- I2. cbn [map plus]. f_equal. f_equal. rewrite u32_turn, Nat2Z.id. reflexivity.
Qed.

(** ** The schedule of an episode of venting *)
Definition tvalves (t : tank) (d : drv) : list bool := match t with T1 => d_t1 d | T2 => d_t2 d end.
Definition shut (t : tank) : list bool := match t with T1 => [false; false] | T2 => [false; false; false; false] end.

Lemma none_shut2 l : none_open l -> length l = 2%nat -> l = [false; false].
Proof.
  intros N L. destruct l as [|a [|b [|]]]; try discriminate L. pose proof (N 0%nat) as N0. pose proof (N 1%nat) as N1. cbn in *.
  destruct a, b; congruence.
Qed.
Lemma none_shut4 l : none_open l -> length l = 4%nat -> l = [false; false; false; false].
Proof.
  intros N L. destruct l as [|a [|b [|e [|f [|]]]]]; try discriminate L.
  pose proof (N 0%nat) as N0. pose proof (N 1%nat) as N1. pose proof (N 2%nat) as N2. pose proof (N 3%nat) as N3. cbn in *.
  destruct a, b, e, f; congruence.
Qed.

Definition episode (fill close mx : Z) (t : tank) (n : Z) (p : pst) : Prop :=
  let F := Z.max fill 1 in let C := Z.max close 1 in
  exists k r v, n - 1 = k * (F + C) + r /\ 0 <= r < F + C /\ 0 <= k < mx /\ (v < length (shut t))%nat /\
    vt_act (ps_vent p) = mk_a (k + 1) v (if r <? F then fill - r else close - (r - F)) /\
    tvalves t (ps_drv p) = set_nth (shut t) v (r <? F).

Lemma shut_valves t v b : (v < length (shut t))%nat -> nth_error (set_nth (shut t) v b) v = Some b /\ set_nth (set_nth (shut t) v b) v false = shut t.
Proof. destruct t; cbn; intros H; do 4 (destruct v as [|v]; [split; reflexivity|try lia]); lia. Qed.
Lemma shut_false t v : (v < length (shut t))%nat -> set_nth (shut t) v false = shut t.
Proof. destruct t; cbn; intros H; do 4 (destruct v as [|v]; [reflexivity|try lia]); lia. Qed.
Lemma tvalves_set t i b d : tvalves t (drv_valve t i b d) = set_nth (tvalves t d) i b /\ tvalves (other t) (drv_valve t i b d) = tvalves (other t) d /\ d_on (drv_valve t i b d) = d_on d.
Proof. destruct t; cbn; auto. Qed.

Lemma venting_episode fill close mx t n p : 0 <= fill -> 0 <= close -> 0 <= mx < 2 ^ 32 -> venting fill close mx t n p ->
  0 <= n /\ ps_state p = p_venting /\ vented p = t /\ chosen p /\ d_on (ps_drv p) = false /\ tvalves (other t) (ps_drv p) = shut (other t) /\
  (n = 0 \/ episode fill close mx t n p) /\
  (n = 0 -> a_count (vt_act (ps_vent p)) = 0 /\ a_timer (vt_act (ps_vent p)) = 0 /\ tvalves t (ps_drv p) = shut t).
Proof.
  intros F0 C0 M0. induction 1 as [p0 cc c s N T1' T2' L1 L2 ON p HS HT|n p p1 cc c s HP IH HB EF EC EM VC HS].
  - pose proof (ctrl_enters cc c s p0 N HS) as (_ & D & _ & _ & A1 & A2 & _ & CH & _). cbv zeta in *. fold p in D, A1, A2, CH.
    split; [lia|]. split; [exact HS|]. split; [exact HT|]. split; [exact CH|]. rewrite D. split; [exact ON|].
    assert (SH : forall u, tvalves u (ps_drv p0) = shut u) by (intros []; cbn; [apply none_shut2|apply none_shut4]; assumption).
    split; [apply SH|]. split; [auto|]. intros _. split; [exact A1|]. split; [exact A2|]. apply SH.
  - destruct IH as (N0 & S0 & T0 & CH0 & D0 & O0 & AT & Z0). pose proof (chosen_between _ _ _ HB CH0) as (CH1 & TV1).
    destruct HB as ((k & HD) & _ & HV & _ & HS1). rewrite after_ticks_off in HD by exact D0. rewrite S0 in HS1.
    pose proof (ctrl_venting cc c s p1 HS1 CH1) as (VT & CH & Q1 & Q2). cbv zeta in *.
    assert (TV : vented p1 = t) by congruence. rewrite TV in *.
    destruct (asks (prop_ctrl cc c s p1) t); cycle 1.
    { destruct (Q1 eq_refl) as (X & _). rewrite HS in X. destruct (s_func s); discriminate X. }
    specialize (Q2 eq_refl). clear Q1.
    destruct (act_run _ _ _ _ _ _ _) as [[[a' d']|] started] eqn:AR; cycle 1.
    { destruct Q2 as (_ & _ & X). rewrite HS in X. destruct (_ && _); discriminate X. }
    destruct Q2 as (_ & PD & PA & _). rewrite EF, EC, EM, HV, HD in AR.
    assert (NX : (next_of c p1 < length (shut t))%nat).
    { unfold next_of. rewrite TV. destruct t; cbn; [exact VC|lia]. }
    set (nv := next_of c p1) in *. clearbody nv.
    split; [lia|]. split; [exact HS|]. split; [congruence|]. split; [exact CH|]. rewrite PD, PA in *.
    assert (OO : d_on d' = false /\ tvalves (other t) d' = shut (other t)).
    { revert AR. unfold act_run. destruct (drv_is_open _ _ _); destruct (_ =? 0); try (destruct (_ <=? _)); intros AR; inversion AR;
        try (rewrite (proj1 (proj2 (tvalves_set _ _ _ _))), (proj2 (proj2 (tvalves_set _ _ _ _)))); auto. }
    destruct OO as (OO1 & OO2). split; [exact OO1|]. split; [exact OO2|]. split; [|lia]. right. clear OO1 OO2.
    assert (U32 : forall x, 0 <= x < mx -> u32 (x + 1) = x + 1) by (intros x Hx; apply u32_id; lia).
    assert (IO : forall v d, drv_is_open t v d = match nth_error (tvalves t d) v with Some b => b | None => false end) by (intros v d; destruct t; reflexivity).
    unfold act_run, ticked in AR. cbn [a_valve a_timer a_count] in AR. rewrite IO in AR.
    destruct AT as [->|(kk & r & v & E1 & E2 & E3 & Ev & E4 & E5)].
    + destruct (Z0 eq_refl) as (Z1 & Z2 & Z3). rewrite Z3, Z1, Z2 in AR.
      assert (OP : match nth_error (shut t) (a_valve (vt_act (ps_vent p))) with Some b => b | None => false end = false).
      { generalize (a_valve (vt_act (ps_vent p))). intros x. destruct t; do 5 (destruct x as [|x]; [reflexivity|]); destruct x; reflexivity. }
      rewrite OP in AR. cbn [timer_tick Z.ltb Z.compare] in AR. change (timer_tick 0 =? 0) with true in AR. destruct (Z.leb_spec mx 0); [discriminate|]. injection AR as AR1 AR2 _.
      exists 0, 0, nv. split; [lia|]. split; [lia|]. split; [lia|]. split; [exact NX|].
      destruct (Z.ltb_spec 0 (Z.max fill 1)); [|lia]. split.
      * rewrite PA, <- AR1. change (u32 (0 + 1)) with 1. f_equal; lia.
      * rewrite PD, <- AR2. rewrite (proj1 (tvalves_set _ _ _ _)), Z3. reflexivity.
    + unfold episode. cbv zeta. rewrite PA, PD. remember (Z.max fill 1) as FF eqn:HFF. remember (Z.max close 1) as CC eqn:HCC.
      destruct (shut_valves t v (r <? FF) Ev) as (TV1' & TV2').
      rewrite E4 in AR. cbn [a_valve a_timer a_count] in AR. rewrite E5, TV1' in AR.
      destruct (Z.ltb_spec r FF) as [L|L].
      * destruct (Z.eqb_spec (timer_tick (fill - r)) 0) as [T|T]; injection AR as AR1 AR2 _.
        -- assert (r = FF - 1) by (unfold timer_tick in T; destruct (Z.ltb_spec 0 (fill - r)); lia).
           exists kk, (r + 1), v. split; [lia|]. split; [lia|]. split; [exact E3|]. split; [exact Ev|].
           destruct (Z.ltb_spec (r + 1) FF); [lia|]. split; [rewrite <- AR1; f_equal; lia|].
           rewrite <- AR2, (proj1 (tvalves_set _ _ _ _)), E5, TV2', shut_false by exact Ev. reflexivity.
        -- unfold timer_tick in *. destruct (Z.ltb_spec 0 (fill - r)); [|lia].
           exists kk, (r + 1), v. split; [lia|]. split; [lia|]. split; [exact E3|]. split; [exact Ev|].
           destruct (Z.ltb_spec (r + 1) FF); [|lia]. split; [rewrite <- AR1; f_equal; lia|]. rewrite <- AR2. exact E5.
      * destruct (Z.eqb_spec (timer_tick (close - (r - FF))) 0) as [T|T].
        -- assert (r = FF + CC - 1) by (unfold timer_tick in T; destruct (Z.ltb_spec 0 (close - (r - FF))); lia).
           destruct (Z.leb_spec mx (kk + 1)); [discriminate|]. injection AR as AR1 AR2 _.
           exists (kk + 1), 0, nv. split; [lia|]. split; [lia|]. split; [lia|]. split; [exact NX|].
           destruct (Z.ltb_spec 0 FF); [|lia]. split.
           ++ rewrite <- AR1. rewrite U32 by lia. f_equal. lia.
           ++ rewrite <- AR2, (proj1 (tvalves_set _ _ _ _)), E5, shut_false by exact Ev. reflexivity.
        -- injection AR as AR1 AR2 _. unfold timer_tick in *. destruct (Z.ltb_spec 0 (close - (r - FF))); [|lia].
           exists kk, (r + 1), v. split; [lia|]. split; [lia|]. split; [exact E3|]. split; [exact Ev|].
           destruct (Z.ltb_spec (r + 1) FF); [lia|]. split; [rewrite <- AR1; f_equal; lia|]. rewrite <- AR2. exact E5.
Qed.

(** C176: one valve of the tank, open in exactly the first [fill] of each [fill + close] evaluations; at most [mx] openings *)
Lemma venting_schedule fill close mx t n p : 0 <= fill -> 0 <= close -> 0 <= mx < 2 ^ 32 -> venting fill close mx t n p ->
  let F := Z.max fill 1 in let P := F + Z.max close 1 in
  n <= mx * P /\ a_count (vt_act (ps_vent p)) <= mx /\
  exists v, forall u i, drv_is_open u i (ps_drv p) = true <-> 1 <= n /\ u = t /\ i = v /\ (n - 1) mod P < F.
Proof.
  intros F0 C0 M0 HP. cbv zeta. destruct (venting_episode _ _ _ _ _ _ F0 C0 M0 HP) as (N0 & _ & _ & _ & _ & OT & [->|(k & r & v & E1 & E2 & E3 & Ev & E4 & E5)] & Z0).
  { destruct (Z0 eq_refl) as (Z1 & _ & Z3). split; [nia|]. split; [lia|]. exists 0%nat. intros u i. split; [|lia].
    intros X. exfalso. assert (Y : tvalves u (ps_drv p) = shut u) by (destruct t, u; assumption).
    assert (W : drv_is_open u i (ps_drv p) = match nth_error (tvalves u (ps_drv p)) i with Some b => b | None => false end) by (destruct u; reflexivity).
    rewrite X, Y in W. destruct u; do 5 (destruct i as [|i]; [discriminate W|]); destruct i; discriminate W. }
  split; [nia|]. split; [rewrite E4; cbn; lia|]. exists v. intros u i. rewrite E1.
  rewrite (Z.add_comm (k * _)), Z.mod_add, Z.mod_small by lia.
  assert (W : drv_is_open u i (ps_drv p) = match nth_error (tvalves u (ps_drv p)) i with Some b => b | None => false end) by (destruct u; reflexivity).
  rewrite W. assert (1 <= n) by nia.
  assert (D : u = t \/ u = other t) by (destruct u, t; cbn; auto). destruct D as [->| ->].
  - rewrite E5. destruct (Nat.eq_dec v i) as [->|NE].
    + destruct (shut_valves t i (r <? Z.max fill 1) Ev) as (-> & _). destruct (Z.ltb_spec r (Z.max fill 1)); intuition (try lia; try discriminate).
    + rewrite set_nth_other by exact NE. split; [|intros (_ & _ & X & _); congruence].
      intros X. exfalso. destruct t; do 5 (destruct i as [|i]; [discriminate X|]); destruct i; discriminate X.
  - rewrite OT. split; [|intros (_ & X & _); destruct t; discriminate X].
    intros X. exfalso. destruct t; do 5 (destruct i as [|i]; [discriminate X|]); destruct i; discriminate X.
Qed.

(** C175, the converse: a tank that asks for relief gets it *)
Lemma asks_state p st t : asks (ps_set_state p st) t = asks p t.
Proof. destruct t; reflexivity. Qed.
Lemma asks_drv p d t : asks (ps_set_drv p d) t = asks p t.
Proof. destruct t; reflexivity. Qed.

Lemma fault_vents cc c s p : ps_state p = p_handling_fault -> s_func s = true ->
  let p' := prop_ctrl cc c s p in asks p' T1 || asks p' T2 = true -> ps_state p' = p_venting.
Proof.
  intros P SF. cbv zeta. rewrite ctrl_finish. destruct (counted_spec cc s p) as (A & _). cbv zeta in *.
  generalize dependent (counted cc s p). intros q A. rewrite P in *. unfold finish.
  change (evaluate cc c s p_handling_fault q) with (let '(p1, v) := can_venting s q in
    if v then (p1, p_venting) else let '(p2, hf) := can_handling_fault s p1 in if hf then (p2, p_handling_fault) else (p2, p_idle)).
  destruct (can_venting s q) as [p1 v] eqn:E1. apply cv_alike in E1. destruct E1 as (A1 & V1). rewrite SF in V1. cbn [andb] in V1.
  destruct v.
  - change (p_venting =? p_handling_fault) with false. cbv iota.
    change (can_enter c s p_venting p1) with (can_venting s p1). destruct (can_venting s p1) as [p2 v2] eqn:E2. apply cv_alike in E2.
    destruct E2 as (A2 & ->). rewrite SF. rewrite !(alike_asks _ _ _ A1), <- V1. cbn [andb]. intros _. rewrite enter_state. reflexivity.
  - destruct (can_handling_fault s p1) as [p2 hf] eqn:E2. pose proof E2 as E2'. apply hf_alike in E2.
    assert (N : forall t, asks p2 t = asks q t) by (intros t; rewrite (alike_asks _ _ _ E2); apply alike_asks; exact A1).
    destruct hf.
    + change (p_handling_fault =? p_handling_fault) with true. cbv iota. rewrite !N, <- V1. discriminate.
    + change (p_idle =? p_handling_fault) with false. cbv iota. change (can_enter c s p_idle p2) with (p2, s_func s). rewrite SF. cbv iota.
      change (enter p_idle (ps_set_state p2 p_idle)) with (ps_set_state p2 p_idle). rewrite !asks_state, !N, <- V1. discriminate.
Qed.

Lemma asks_enter st p t : st <> p_venting -> asks (enter st p) t = asks p t.
Proof.
  intros N. unfold enter. destruct (st =? p_pressurizing); [destruct t; reflexivity|]. destruct (st =? p_firing); [destruct t; reflexivity|].
  destruct (Z.eqb_spec st p_venting); [contradiction|]. destruct (_ || _); [reflexivity|]. destruct t; reflexivity.
Qed.
Lemma asks_can_enter c s st p t : asks (fst (can_enter c s st p)) t = asks p t.
Proof.
  unfold can_enter. repeat match goal with |- context [if ?b then _ else _] => destruct b; [|try reflexivity] end; try reflexivity.
  all: try (destruct (can_venting s p) as [q b] eqn:E; apply cv_alike in E; cbn [fst]; apply alike_asks, E).
  all: try (destruct (can_handling_fault s p) as [q b] eqn:E; apply hf_alike in E; cbn [fst]; apply alike_asks, E).
Qed.

(** waiting, or firing, it turns to the fault first *)
Lemma fault_noticed cc c s p : In (ps_state p) [p_idle; p_await_pressurizing; p_await_firing; p_firing] -> s_func s = true ->
  let p' := prop_ctrl cc c s p in asks p' T1 || asks p' T2 = true -> ps_state p' = p_handling_fault.
Proof.
  intros P SF. cbv zeta. rewrite ctrl_finish. destruct (counted_spec cc s p) as (A & _). cbv zeta in *.
  generalize dependent (counted cc s p). intros q A. rewrite <- A in P. rewrite <- A. clear A. unfold finish.
  assert (ND : ps_state q <> p_disabled) by (intros X; rewrite X in P; cbn in P; intuition discriminate).
  assert (NV : ps_state q <> p_venting) by (intros X; rewrite X in P; cbn in P; intuition discriminate).
  assert (NH : ps_state q <> p_handling_fault) by (intros X; rewrite X in P; cbn in P; intuition discriminate).
  destruct (asks q T1 || asks q T2) eqn:AQ.
  - intros _. destruct (can_handling_fault s q) as [q1 hf] eqn:E. pose proof (hf_answer _ _ _ _ E ND SF AQ) as H. subst hf.
    assert (EV : exists d, evaluate cc c s (ps_state q) q = (ps_set_drv q1 d, p_handling_fault)).
    { unfold evaluate. rewrite E. cbn in P. destruct P as [<-|[<-|[<-|[<-|[]]]]]; cbn [Z.eqb]; cbv [p_idle p_await_pressurizing p_pressurizing p_await_firing p_firing Z.eqb Pos.eqb];
        first [exists (ps_drv q1); destruct q1; reflexivity|eexists; reflexivity]. }
    destruct EV as (d & ->). destruct (Z.eqb_spec p_handling_fault (ps_state q)); [congruence|].
    apply hf_alike in E. change (can_enter c s p_handling_fault (ps_set_drv q1 d)) with (can_handling_fault s (ps_set_drv q1 d)).
    destruct (can_handling_fault s (ps_set_drv q1 d)) as [q2 h2] eqn:E2.
    assert (h2 = true) as ->.
    { apply (hf_answer _ _ _ _ E2); [cbn; rewrite (proj1 (proj1 E)); exact ND|exact SF|]. rewrite !asks_drv, !(alike_asks _ _ _ E). exact AQ. }
    rewrite enter_state. reflexivity.
  - assert (EV : forall t, asks (fst (evaluate cc c s (ps_state q) q)) t = asks q t).
    { intros t. destruct (can_handling_fault s q) as [q1 hf] eqn:E. pose proof (alike_asks _ _ t (hf_alike _ _ _ _ E)) as AL.
      unfold evaluate. rewrite E. cbn in P. destruct P as [<-|[<-|[<-|[<-|[]]]]]; cbv [p_idle p_await_pressurizing p_pressurizing p_await_firing p_firing Z.eqb Pos.eqb];
        destruct hf; cbn [fst]; rewrite ?asks_drv; try exact AL;
        repeat match goal with |- context [if ?b then _ else _] => destruct b end; cbn [fst]; rewrite ?asks_drv; exact AL. }
    pose proof (evaluate_vent cc c s (ps_state q) q NV) as (_ & EN).
    destruct (evaluate cc c s (ps_state q) q) as [p3 next]. cbn [fst snd] in *.
    assert (NN : next <> p_venting) by (intros X; destruct (EN X) as (X2 & _); contradiction).
    destruct (next =? ps_state q); [rewrite !EV, AQ; discriminate|].
    pose proof (fun t => asks_can_enter c s next p3 t) as CE. destruct (can_enter c s next p3) as [p4 ok]. cbn [fst] in CE.
    destruct ok; [rewrite !(asks_enter _ _ _ NN)|]; rewrite !asks_state, !CE, !EV, AQ; discriminate.
Qed.

Lemma fault_is_served st y l p : prun (pst_init st) (y :: l) p -> s_func (y_sens y) = true -> asks (y_after y) T1 || asks (y_after y) T2 = true ->
  (In (ps_state (y_before y)) [p_idle; p_await_pressurizing; p_await_firing; p_firing] -> ps_state (y_after y) = p_handling_fault) /\
  (ps_state (y_before y) = p_handling_fault -> ps_state (y_after y) = p_venting).
Proof.
  intros H SF. destruct (chosen_before _ _ _ _ H) as (_ & _ & E). rewrite E. intros AS. split; intros P.
  - exact (fault_noticed _ _ _ _ P SF AS).
  - exact (fault_vents _ _ _ _ P SF AS).
Qed.
