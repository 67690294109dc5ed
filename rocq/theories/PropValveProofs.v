From Verif Require Import Base FaultModel FaultHandlerModel PropModel PropSpec PropProofs PropCtrlProofs.

Lemma upd_none {A} (l : list A) : forall i x, nth_error l i = None -> upd l i x = None.
Proof. induction l as [|a l IH]; intros [|i] x H; cbn in *; try reflexivity; try discriminate. rewrite IH by exact H. reflexivity. Qed.
Lemma upd_some {A} (l : list A) : forall i x, nth_error l i <> None ->
  exists l', upd l i x = Some l' /\ nth_error l' i = Some x /\ (forall j, j <> i -> nth_error l' j = nth_error l j) /\ length l' = length l.
Proof.
  induction l as [|a l IH]; intros [|i] x H; cbn in *; try congruence.
  - exists (x :: l). split; [reflexivity|]. split; [reflexivity|]. split; [|reflexivity]. intros [|j] N; [congruence|reflexivity].
  - destruct (IH i x H) as (l' & -> & A1 & A2 & A3). exists (a :: l'). split; [reflexivity|]. split; [exact A1|]. split; [|cbn; congruence].
    intros [|j] N; [reflexivity|]. cbn. apply A2. congruence.
Qed.
Lemma set_nth_open l i b j : nth_error (set_nth l i b) j = Some true -> (j = i /\ b = true) \/ (j <> i /\ nth_error l j = Some true).
Proof.
  unfold set_nth. destruct (nth_error l i) eqn:E.
  - destruct (upd_some l i b) as (l' & -> & A1 & A2 & _); [congruence|]. destruct (Nat.eq_dec j i) as [->|N]; [|rewrite A2 by exact N; auto].
    rewrite A1. intros H. injection H as ->. auto.
  - rewrite upd_none by exact E. destruct (Nat.eq_dec j i) as [->|N]; [congruence|auto].
Qed.
Lemma set_nth_length l i (b : bool) : length (set_nth l i b) = length l.
Proof.
  unfold set_nth. destruct (nth_error l i) eqn:E.
  - destruct (upd_some l i b) as (l' & -> & _ & _ & A3); [congruence|]. exact A3.
  - rewrite upd_none by exact E. reflexivity.
Qed.

Lemma closed_none l : all_closed l -> none_open l.
Proof. intros H j E. unfold all_closed in H. rewrite Forall_forall in H. apply nth_error_In in E. specialize (H _ E). discriminate. Qed.
Lemma none_closed l : none_open l -> all_closed l.
Proof. intros H. apply Forall_forall. intros [] I; [|reflexivity]. apply In_nth_error in I. destruct I as (j & I). destruct (H j I). Qed.
Lemma only_close l i : only_open l i -> none_open (set_nth l i false).
Proof. intros H j E. apply set_nth_open in E. destruct E as [(_ & E)|(N & E)]; [discriminate|]. apply N, H, E. Qed.
Lemma only_shut l i d t : only_open l i -> l = match t with T1 => d_t1 d | T2 => d_t2 d end -> drv_is_open t i d = false -> none_open l.
Proof. intros H -> E j F. pose proof (H j F). subst j. unfold drv_is_open in E. destruct t; rewrite F in E; discriminate. Qed.
Lemma none_only l i : none_open l -> only_open l i. Proof. intros H j E. destruct (H j E). Qed.
Lemma none_open_one l i : none_open l -> only_open (set_nth l i true) i.
Proof. intros H j E. apply set_nth_open in E. destruct E as [(-> & _)|(_ & E)]; [reflexivity|destruct (H j E)]. Qed.

Definition quiet (d : drv) : Prop := none_open (d_t1 d) /\ none_open (d_t2 d) /\ d_on d = false.
(** no more than the named valve *)
Definition single (d : drv) (t : tank) (i : nat) : Prop :=
  d_on d = false /\ match t with T1 => only_open (d_t1 d) i /\ none_open (d_t2 d) | T2 => none_open (d_t1 d) /\ only_open (d_t2 d) i end.

Definition valve_inv (p : pst) : Prop :=
  if ps_state p =? p_firing then none_open (d_t1 (ps_drv p))
  else if ps_state p =? p_pressurizing then single (ps_drv p) T1 (a_valve (ps_press p))
  else if ps_state p =? p_venting then single (ps_drv p) (vt_tank (ps_vent p)) (a_valve (vt_act (ps_vent p)))
  else if ps_state p =? p_manual then False
  else quiet (ps_drv p).

Lemma quiet_single d t i : quiet d -> single d t i.
Proof. intros (A & B & C). split; [exact C|]. destruct t; split; auto using none_only. Qed.
Lemma reset_quiet d : quiet (drv_reset d).
Proof. destruct (reset_safe d) as (A & B & _ & C). split; [|split]; auto using closed_none. Qed.
Lemma single_close d t i : single d t i -> quiet (drv_valve t i false d).
Proof. intros (A & B). destruct t; destruct B as (B & C); split; cbn; auto using only_close. Qed.
Lemma single_shut d t i : single d t i -> drv_is_open t i d = false -> quiet d.
Proof. intros (A & B) H. destruct t; destruct B as (B & C); (split; [|split]); auto.
  - apply (only_shut _ i d T1); auto.
  - apply (only_shut _ i d T2); auto.
Qed.
Lemma quiet_open d t i : quiet d -> single (drv_valve t i true d) t i.
Proof. intros (A & B & C). destruct t; split; cbn; auto using none_open_one. Qed.

Lemma act_run_single t nv f cl mx a d : single d t (a_valve a) ->
  match fst (act_run t nv f cl mx a d) with Some (a', d') => single d' t (a_valve a') | None => quiet d end.
Proof.
  intros H. unfold act_run. destruct (drv_is_open t (a_valve a) d) eqn:E.
  - destruct (a_timer a =? 0); cbn; [apply quiet_single, single_close, H|exact H].
  - destruct (a_timer a =? 0); [|exact H]. pose proof (single_shut _ _ _ H E) as Q. destruct (mx <=? a_count a); cbn; [exact Q|]. apply quiet_open, Q.
Qed.

Lemma schedule_quiet l d : quiet d -> quiet (fst (drv_set_schedule l d)).
Proof. intros (A & B & C). unfold drv_set_schedule. rewrite C. destruct (existsb _ l); repeat split; auto. Qed.

Lemma enter_inv st p : quiet (ps_drv p) -> ps_state p = st -> st <> p_manual -> valve_inv (enter st p).
Proof.
  intros Q S NM. unfold enter, valve_inv. unfold p_firing, p_pressurizing, p_venting, p_manual in *.
  destruct (Z.eqb_spec st 3) as [E|E]. { cbn. rewrite S, E. cbn. apply quiet_single, Q. }
  destruct (Z.eqb_spec st 5) as [E2|E2]. { cbn. rewrite S, E2. cbn. unfold drv_start. destruct (d_on (ps_drv p)); apply Q. }
  destruct (Z.eqb_spec st 4) as [E3|E3].
  { pose proof (same_dft p) as SD. destruct (determine_faulted_tank p) as [q t]. cbn [fst] in SD. destruct SD as (S1 & _ & _ & _ & _ & S6).
    cbn. rewrite S1, S, E3. cbn. rewrite S6. destruct (t =? 2); cbn; apply quiet_single, Q. }
  destruct (_ || _).
  - rewrite S. repeat match goal with |- context [st =? ?k] => destruct (Z.eqb_spec st k); [contradiction|] end. exact Q.
  - cbn [ps_state ps_set_drv ps_drv]. rewrite S. repeat match goal with |- context [st =? ?k] => destruct (Z.eqb_spec st k); [contradiction|] end. apply reset_quiet.
Qed.

Lemma quiet_inv p : quiet (ps_drv p) -> ps_state p <> p_manual -> valve_inv p.
Proof.
  intros Q N. unfold valve_inv. destruct (_ =? _); [apply Q|]. destruct (_ =? _); [apply quiet_single, Q|]. destruct (_ =? _); [apply quiet_single, Q|].
  destruct (Z.eqb_spec (ps_state p) p_manual); [contradiction|exact Q].
Qed.

Definition finish (c : pcfg) (s : sens) (st : Z) (r : pst * Z) : pst :=
  let '(p3, next) := r in
  if next =? st then p3 else
  let '(p4, ok) := can_enter c s next p3 in if ok then enter next (ps_set_state p4 next) else ps_set_state p4 p_disabled.

Lemma finish_inv c s p3 next : ps_state p3 <> p_manual -> next <> p_manual ->
  (next = ps_state p3 -> valve_inv p3) -> (next <> ps_state p3 -> next = p_disabled \/ quiet (ps_drv p3)) ->
  valve_inv (finish c s (ps_state p3) (p3, next)).
Proof.
  intros NM1 NM2 H1 H2. unfold finish. destruct (Z.eqb_spec next (ps_state p3)) as [E|E]; [auto|].
  destruct (H2 E) as [->|Q].
  - change (valve_inv (ps_set_drv (ps_set_state p3 p_disabled) (drv_reset (ps_drv p3)))). apply quiet_inv; [apply reset_quiet|discriminate].
  - pose proof (same_can c s next p3) as S. destruct (can_enter c s next p3) as [p4 ok]. cbn [fst] in S. destruct S as (_ & _ & _ & _ & _ & S).
    destruct ok; [apply enter_inv; [cbn; rewrite S; exact Q|reflexivity|exact NM2]|]. apply quiet_inv; [cbn; rewrite S; exact Q|discriminate].
Qed.

Lemma evaluate_inv cc c s q : valve_inv q ->
  let r := evaluate cc c s (ps_state q) q in
  snd r <> p_manual /\ (snd r = ps_state q -> valve_inv (fst r)) /\ (snd r <> ps_state q -> snd r = p_disabled \/ quiet (ps_drv (fst r))).
Proof.
  intros H. cbv zeta. pose proof (eval_state cc c s (ps_state q) q) as ES.
  assert (KEEP : forall r, same q r -> valve_inv r).
  { intros r (R1 & _ & _ & R4 & R5 & R6). unfold valve_inv in *. rewrite R1, R4, R5, R6. exact H. }
  assert (CL : forall x, ps_state q = x -> x <> p_firing -> x <> p_pressurizing -> x <> p_venting -> quiet (ps_drv q)).
  { intros x E N1 N2 N3. unfold valve_inv in H. rewrite E in H.
    destruct (Z.eqb_spec x p_firing); [contradiction|]. destruct (Z.eqb_spec x p_pressurizing); [contradiction|]. destruct (Z.eqb_spec x p_venting); [contradiction|].
    destruct (x =? p_manual); [contradiction|exact H]. }
  remember (ps_state q) as st eqn:EST. symmetry in EST.
  unfold evaluate in *.
  destruct (Z.eqb_spec st p_idle) as [E|E].
  { assert (Q : quiet (ps_drv q)) by (apply (CL st); rewrite ?E; auto; discriminate).
    pose proof (same_hf s q) as S. destruct (can_handling_fault s q) as [q1 []]; cbn [fst snd] in *.
    - split; [discriminate|]. split; [intros X; rewrite E in X; discriminate|]. intros _. right. destruct S as (_ & _ & _ & _ & _ & ->). exact Q.
    - destruct (can_pressurizing c s q1); cbn [fst snd] in *.
      + split; [discriminate|]. split; [intros X; rewrite E in X; discriminate|]. intros _. right. destruct S as (_ & _ & _ & _ & _ & ->). exact Q.
      + destruct (can_await_pressurizing c s q1); cbn [fst snd] in *; (split; [discriminate|]); (split; [auto|]); intros _; right; destruct S as (_ & _ & _ & _ & _ & ->); exact Q. }
  destruct (Z.eqb_spec st p_await_pressurizing) as [E1|E1].
  { assert (Q : quiet (ps_drv q)) by (apply (CL st); rewrite ?E1; auto; discriminate).
    pose proof (same_hf s q) as S. destruct (can_handling_fault s q) as [q1 []]; cbn [fst snd] in *.
    - split; [discriminate|]. split; [auto|]. intros _. right. destruct S as (_ & _ & _ & _ & _ & ->). exact Q.
    - destruct (can_pressurizing c s q1); cbn [fst snd] in *; (split; [discriminate|]); (split; [auto|]); intros _; right; destruct S as (_ & _ & _ & _ & _ & ->); exact Q. }
  destruct (Z.eqb_spec st p_pressurizing) as [E2|E2].
  { assert (Q : single (ps_drv q) T1 (a_valve (ps_press q))) by (unfold valve_inv in H; rewrite EST, E2 in H; exact H).
    unfold eval_pressurizing. destruct (ps_until q <=? 1).
    { cbn [fst snd]. split; [discriminate|]. split; [intros X; rewrite E2 in X; discriminate|]. intros _. right. apply reset_quiet. }
    pose proof (same_hf s q) as S. destruct (can_handling_fault s q) as [q1 []]; cbn [fst] in S.
    { cbn [fst snd]. split; [discriminate|]. split; [intros X; rewrite E2 in X; discriminate|]. intros _. right. apply reset_quiet. }
    destruct S as (S1 & S2 & S3 & S4 & S5 & S6). cbv zeta.
    destruct (s_threshold s).
    { cbn [fst snd]. split; [discriminate|]. split; [intros X; rewrite E2 in X; discriminate|]. intros _. right. cbn. rewrite S4, S6. apply (single_close _ T1), Q. }
    destruct (negb _). { cbn [fst snd]. split; [discriminate|]. split; [intros X; rewrite E2 in X; discriminate|]. auto. }
    match goal with |- context [act_run T1 ?a ?b ?c ?d ?e ?f] => pose proof (act_run_single T1 a b c d e f) as AR; destruct (fst (act_run T1 a b c d e f)) as [[a' d']|] end.
    { cbn [fst snd]. split; [discriminate|]. split; [|intros X; rewrite E2 in X; contradiction]. intros _. unfold valve_inv. cbn. rewrite S1, EST, E2. cbn.
      apply AR. cbn. rewrite S4, S6. exact Q. }
    assert (QQ : quiet (ps_drv q)) by (cbn in AR; rewrite S4, S6 in AR; exact (AR Q)).
    match goal with |- context [ps_read PressurizeFail ?x] => pose proof (same_read PressurizeFail x) as SR; destruct (ps_read PressurizeFail x) as [p4 b] end.
    destruct SR as (_ & _ & _ & _ & _ & SR). cbn in SR.
    destruct b; cbn [fst snd]; (split; [discriminate|]); (split; [intros X; rewrite E2 in X; discriminate|]); intros _; right; [apply reset_quiet|]. rewrite SR, S6. exact QQ. }
  destruct (Z.eqb_spec st p_await_firing) as [E3|E3].
  { assert (Q : quiet (ps_drv q)) by (apply (CL st); rewrite ?E3; auto; discriminate).
    pose proof (same_hf s q) as S. destruct (can_handling_fault s q) as [q1 []]; cbn [fst snd] in *.
    - split; [discriminate|]. split; [auto|]. intros _. right. destruct S as (_ & _ & _ & _ & _ & ->). exact Q.
    - destruct (ps_until q1 =? 0); cbn [fst snd] in *; (split; [discriminate|]).
      + split; [intros X; rewrite E3 in X; discriminate|]. intros _. right. cbn. destruct S as (_ & _ & _ & _ & _ & ->). apply schedule_quiet, Q.
      + split; [auto|]. intros _; right; destruct S as (_ & _ & _ & _ & _ & ->); exact Q. }
  destruct (Z.eqb_spec st p_firing) as [E4|E4].
  { assert (Q : none_open (d_t1 (ps_drv q))) by (unfold valve_inv in H; rewrite EST, E4 in H; exact H).
    pose proof (same_hf s q) as S. destruct (can_handling_fault s q) as [q1 []]; cbn [fst snd] in *.
    - split; [discriminate|]. split; [intros X; rewrite E4 in X; discriminate|]. intros _. right. apply reset_quiet.
    - destruct (_ =? 0); cbn [fst snd] in *; (split; [discriminate|]).
      + split; [intros X; rewrite E4 in X; discriminate|]. intros _. right. cbn. destruct S as (_ & _ & _ & _ & _ & ->). split; [exact Q|]. split; [|reflexivity].
        apply closed_none, map_false_closed.
      + split; [auto|]. intros X. rewrite E4 in X. contradiction. }
  destruct (Z.eqb_spec st p_venting) as [E5|E5].
  { assert (Q : single (ps_drv q) (vt_tank (ps_vent q)) (a_valve (vt_act (ps_vent q)))) by (unfold valve_inv in H; rewrite EST, E5 in H; exact H).
    destruct (vent_cases c q) as (r & _ & K & D & _ & V & [EV|EV]); cbn [fst] in *.
    - rewrite EV. cbn [fst snd]. split; [discriminate|]. split; [intros X; rewrite E5 in X; discriminate|]. intros _. right. cbn. apply single_close, Q.
    - match type of EV with match ?x with _ => _ end => destruct x as [[[a' d']|] b] eqn:AE end.
      + rewrite EV. cbn [fst snd]. split; [discriminate|]. split; [|intros X; rewrite E5 in X; contradiction]. intros _. unfold valve_inv. cbn.
        destruct K as (K & _). rewrite K, EST, E5. cbn.
        match type of AE with act_run ?t ?a ?b ?c ?d ?e ?f = _ => pose proof (act_run_single t a b c d e f) as AR end. rewrite AE in AR. cbn in AR. exact (AR Q).
      + assert (QQ : quiet (ps_drv q)).
        { match type of AE with act_run ?t ?a ?b ?c ?d ?e ?f = _ => pose proof (act_run_single t a b c d e f) as AR end. rewrite AE in AR. cbn in AR. exact (AR Q). }
        destruct EV as [EV|(_ & EV)]; rewrite EV; cbn [fst snd]; (split; [discriminate|]); (split; [intros X; rewrite E5 in X; discriminate|]); intros _; right; rewrite D; exact QQ. }
  destruct (Z.eqb_spec st p_handling_fault) as [E6|E6].
  { assert (Q : quiet (ps_drv q)) by (apply (CL st); rewrite ?E6; auto; discriminate).
    pose proof (same_cv s q) as S. destruct (can_venting s q) as [q1 []]; cbn [fst snd] in *.
    - split; [discriminate|]. split; [intros X; rewrite E6 in X; discriminate|]. intros _. right. destruct S as (_ & _ & _ & _ & _ & ->). exact Q.
    - pose proof (same_hf s q1) as S2. destruct (can_handling_fault s q1) as [q2 []]; cbn [fst snd] in *; pose proof (same_trans _ _ _ S S2) as S3; (split; [discriminate|]); (split; [auto|]);
      intros _; right; destruct S3 as (_ & _ & _ & _ & _ & ->); exact Q. }
  destruct (Z.eqb_spec st p_manual) as [E7|E7].
  { exfalso. unfold valve_inv in H. rewrite EST, E7 in H. exact H. }
  cbn [fst snd]. split; [discriminate|]. split; [|auto]. intros _. apply quiet_inv; [apply reset_quiet|]. cbn. congruence.
Qed.

Lemma ctrl_finish cc c s p : prop_ctrl cc c s p = finish c s (ps_state p) (evaluate cc c s (ps_state p) (counted cc s p)).
Proof. rewrite ctrl_unfold. cbv zeta. destruct (counted_spec cc s p) as (A & _). cbv zeta in A. rewrite A. reflexivity. Qed.

Lemma inv_not_manual p : valve_inv p -> ps_state p <> p_manual.
Proof. intros H E. unfold valve_inv in H. rewrite E in H. exact H. Qed.

Lemma ctrl_inv cc c s p : valve_inv p -> valve_inv (prop_ctrl cc c s p).
Proof.
  intros H. rewrite ctrl_finish. destruct (counted_spec cc s p) as (A & B & C & D & E & F). cbv zeta in *.
  assert (HQ : valve_inv (counted cc s p)) by (unfold valve_inv in *; rewrite A, D, E, F; exact H).
  pose proof (evaluate_inv cc c s _ HQ) as EI. cbv zeta in EI. rewrite A in EI.
  pose proof (eval_state cc c s (ps_state p) (counted cc s p)) as ES. rewrite A in ES.
  destruct (evaluate cc c s (ps_state p) (counted cc s p)) as [p3 next]. cbn [fst snd] in *. rewrite <- ES in *.
  apply finish_inv; try tauto. rewrite ES. apply inv_not_manual, H.
Qed.

Lemma after_ticks_off n d : d_on d = false -> after_ticks n d = d.
Proof. intros H. induction n as [|n IH]; [reflexivity|]. cbn. rewrite IH. unfold drv_tick. rewrite H. reflexivity. Qed.
Lemma after_ticks_t1 n d : d_t1 (after_ticks n d) = d_t1 d.
Proof.
  induction n as [|n IH]; [reflexivity|]. cbn. unfold drv_tick, thrust_valve_loop. destruct (d_on _); [|exact IH].
  destruct (valve_loop _ _ _). exact IH.
Qed.

Lemma between_inv who p p1 : who <> Ground -> between who p p1 -> valve_inv p -> valve_inv p1 \/ is_disabled (ps_state p1).
Proof.
  intros NG ((n & D) & P & V & _ & W) H.
  assert (K : ps_state p1 = ps_state p -> valve_inv p1).
  { intros E. unfold valve_inv in *. rewrite E, P, V.
    destruct (ps_state p =? p_firing). { rewrite D, after_ticks_t1. exact H. }
    assert (OFF : d_on (ps_drv p) = false) by (destruct (_ =? _); [apply H|]; destruct (_ =? _); [apply H|]; destruct (_ =? _); [contradiction|apply H]).
    rewrite D, after_ticks_off by exact OFF. exact H. }
  destruct who; [auto| |contradiction].
  destruct W as [W|(W & W2)].
  - right. rewrite W. unfold is_disabled, p_disabled. lia.
  - left. destruct W2 as [W2|W2]; [|apply K; congruence].
    unfold valve_inv in *. rewrite W. rewrite W2 in H. cbn in *. rewrite D, after_ticks_off by apply H. exact H.
Qed.

Lemma run_inv p0 l p : prun p0 l p -> Forall (fun y => y_who y <> Ground) l -> valve_inv p0 -> valve_inv p.
Proof.
  induction 1 as [|l p who p1 cc c s HR IH HB]; intros NG H0; [exact H0|].
  inversion_clear NG as [|? ? G1 G2]. cbn in G1. destruct (between_inv who p p1 G1 HB (IH G2 H0)) as [I|I]; [apply ctrl_inv, I|].
  destruct (ctrl_disabled cc c s p1 I) as (A & (B1 & B2 & _ & B3) & _). apply quiet_inv; [split; [|split]; auto using closed_none|rewrite A; discriminate].
Qed.

(** C52 *)
Lemma valves_outside_firing p0 l p : prun p0 l p -> Forall (fun y => y_who y <> Ground) l ->
  ps_state p0 = p_disabled -> none_open (d_t1 (ps_drv p0)) -> none_open (d_t2 (ps_drv p0)) -> d_on (ps_drv p0) = false ->
  ps_state p <> p_firing ->
  d_on (ps_drv p) = false /\
  (ps_state p <> p_venting -> none_open (d_t2 (ps_drv p))) /\
  (ps_state p <> p_venting -> ps_state p <> p_pressurizing -> none_open (d_t1 (ps_drv p))) /\
  (forall t u i j, drv_is_open t i (ps_drv p) = true -> drv_is_open u j (ps_drv p) = true -> t = u /\ i = j).
Proof.
  intros HR NG S0 A B C NF.
  assert (H : valve_inv p) by (apply (run_inv p0 l p HR NG), quiet_inv; [split; auto|rewrite S0; discriminate]).
  unfold valve_inv in H. destruct (Z.eqb_spec (ps_state p) p_firing); [contradiction|].
  assert (SG : forall t v, single (ps_drv p) t v -> forall t u i j, drv_is_open t i (ps_drv p) = true -> drv_is_open u j (ps_drv p) = true -> t = u /\ i = j).
  { clear. intros t v (_ & S) x y i j Hx Hy. unfold drv_is_open in *.
    destruct t, x, y; cbn in *;
      repeat match goal with
      | H : match nth_error ?l ?i with _ => _ end = true |- _ => destruct (nth_error l i) as [[]|] eqn:?; try discriminate; clear H
      end; destruct S as (S1 & S2);
      repeat match goal with
      | S : none_open ?l, E : nth_error ?l _ = Some true |- _ => destruct (S _ E)
      | S : only_open ?l _, E : nth_error ?l _ = Some true |- _ => apply S in E
      end; subst; auto. }
  destruct (Z.eqb_spec (ps_state p) p_pressurizing) as [E|E].
  { split; [apply H|]. split; [intros _; apply H|]. split; [intros; contradiction|]. eapply SG, H. }
  destruct (Z.eqb_spec (ps_state p) p_venting) as [E2|E2].
  { split; [apply H|]. split; [intros; contradiction|]. split; [intros; contradiction|]. eapply SG, H. }
  destruct (_ =? p_manual); [contradiction|]. destruct H as (H1 & H2 & H3). split; [exact H3|]. split; [auto|]. split; [auto|].
  apply (SG T1 0%nat). apply quiet_single. split; auto.
Qed.
