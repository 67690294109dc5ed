From Verif Require Import Base FaultModel FaultHandlerModel PropModel PropSpec PropProofs.

(** everything but the faults' bookkeeping *)
Definition same (p q : pst) : Prop :=
  ps_state q = ps_state p /\ ps_until q = ps_until p /\ ps_fired q = ps_fired p /\ ps_press q = ps_press p /\
  ps_vent q = ps_vent p /\ ps_drv q = ps_drv p.
Lemma same_refl p : same p p. Proof. unfold same. auto 10. Qed.
Lemma same_trans p q r : same p q -> same q r -> same p r. Proof. unfold same. intuition congruence. Qed.
Lemma same_faults p f : same p (ps_set_faults p f). Proof. unfold same. cbn. auto 10. Qed.
Lemma same_read i p : same p (fst (ps_read i p)).
Proof. unfold ps_read. destruct (fault_read (ps_faults p i)). apply same_faults. Qed.

Ltac reads := repeat match goal with
  | |- context [let '(_, _) := ps_read ?i ?p in _] =>
    let H := fresh "S" in pose proof (same_read i p) as H; destruct (ps_read i p) as [? ?]; cbn [fst] in H
  end.
Ltac chain := repeat first [assumption | apply same_refl | eapply same_trans; [eassumption|]].

Lemma same_hf s p : same p (fst (can_handling_fault s p)).
Proof. unfold can_handling_fault. destruct (was p p_disabled); [apply same_refl|]. reads. cbn [fst]. chain. Qed.
Lemma same_cv s p : same p (fst (can_venting s p)).
Proof. unfold can_venting. reads. cbn [fst]. chain. Qed.
Lemma same_t2 p : same p (fst (tank2_wants p)).
Proof. unfold tank2_wants. reads. destruct b; cbn [fst]; [chain|]. eapply same_trans; [eassumption|apply same_read]. Qed.
Lemma same_vs p : same p (fst (vent_succeeded p)).
Proof.
  unfold vent_succeeded. destruct (_ =? 1); [reads; cbn [fst]; chain|]. pose proof (same_t2 p). destruct (tank2_wants p). exact H.
Qed.
Lemma same_dft p : same p (fst (determine_faulted_tank p)).
Proof.
  unfold determine_faulted_tank. reads. destruct b.
  - pose proof (same_t2 p0) as H. destruct (tank2_wants p0) as [p1 w]. cbn [fst] in H. destruct w; cbn [fst]; [chain|].
    reads. cbn [fst]. chain.
  - reads. cbn [fst]. chain.
Qed.
Lemma same_can c s st p : same p (fst (can_enter c s st p)).
Proof.
  unfold can_enter. repeat match goal with |- context [if ?c then _ else _] => destruct c end; cbn [fst]; try apply same_refl; [apply same_cv|apply same_hf].
Qed.
Lemma same_checks cc s p : same p (check_faults cc s p).
Proof. unfold check_faults, ps_eval. repeat (eapply same_trans; [|apply same_faults]). apply same_refl. Qed.
Lemma same_set_state p q s : same p q -> same (ps_set_state p s) (ps_set_state q s).
Proof. unfold same. cbn. tauto. Qed.

(** the countdown step *)
Definition counted (cc : Z) (s : sens) (p : pst) : pst :=
  let p1 := check_faults cc s p in if 0 <? ps_until p1 then ps_set_until p1 (ps_until p1 - 1) else p1.
Lemma counted_spec cc s p : let q := counted cc s p in
  ps_state q = ps_state p /\ ps_until q = (if 0 <? ps_until p then ps_until p - 1 else ps_until p) /\ ps_fired q = ps_fired p /\
  ps_press q = ps_press p /\ ps_vent q = ps_vent p /\ ps_drv q = ps_drv p.
Proof.
  cbv zeta. unfold counted. destruct (same_checks cc s p) as (A & B & C & D & E & F). rewrite B.
  destruct (0 <? ps_until p); cbn; auto 10.
Qed.

Lemma ctrl_unfold cc c s p : prop_ctrl cc c s p =
  let q := counted cc s p in
  let '(p3, next) := evaluate cc c s (ps_state q) q in
  if next =? ps_state q then p3 else
  let '(p4, ok) := can_enter c s next p3 in if ok then enter next (ps_set_state p4 next) else ps_set_state p4 p_disabled.
Proof. reflexivity. Qed.

(** ** disabled *)

Lemma ctrl_disabled cc c s p : is_disabled (ps_state p) ->
  ps_state (prop_ctrl cc c s p) = p_disabled /\ safe (ps_drv (prop_ctrl cc c s p)) /\ ps_fired (prop_ctrl cc c s p) = ps_fired p.
Proof.
  intros H. rewrite ctrl_unfold. cbv zeta. destruct (counted_spec cc s p) as (A & B & C & D & E & F). cbv zeta in *.
  generalize dependent (counted cc s p). intros q A B C D E F. rewrite A.
  assert (EV : evaluate cc c s (ps_state p) q = (ps_set_drv q (drv_reset (ps_drv q)), p_disabled)).
  { unfold evaluate, p_idle, p_await_pressurizing, p_pressurizing, p_await_firing, p_firing, p_venting, p_handling_fault, p_manual, is_disabled in *.
    repeat match goal with |- context [ps_state p =? ?k] => destruct (Z.eqb_spec (ps_state p) k); [lia|] end. reflexivity. }
  rewrite EV. destruct (Z.eqb_spec p_disabled (ps_state p)) as [Q|Q].
  - cbn. split; [congruence|]. split; [apply reset_safe|exact C].
  - unfold can_enter. cbn - [drv_reset]. split; [reflexivity|]. split; [apply reset_safe|exact C].
Qed.

(** ** what can follow what *)
Ltac inv_eval := repeat match goal with
  | H : context [let '(_, _) := can_handling_fault ?s ?p in _] |- _ =>
    let E := fresh "SF" in pose proof (same_hf s p) as E; destruct (can_handling_fault s p) as [? ?]; cbn [fst] in E
  | H : context [let '(_, _) := can_venting ?s ?p in _] |- _ =>
    let E := fresh "SV" in pose proof (same_cv s p) as E; destruct (can_venting s p) as [? ?]; cbn [fst] in E
  end.

Definition keeps (p q : pst) : Prop := ps_state q = ps_state p /\ ps_until q = ps_until p /\ ps_fired q = ps_fired p.
Lemma same_keeps p q : same p q -> keeps p q. Proof. unfold same, keeps. tauto. Qed.
Lemma keeps_trans p q r : keeps p q -> keeps q r -> keeps p r. Proof. unfold keeps. intuition congruence. Qed.
Lemma keeps_eq p q r : keeps p q -> ps_state r = ps_state q -> ps_until r = ps_until q -> ps_fired r = ps_fired q -> keeps p r.
Proof. unfold keeps. intuition congruence. Qed.

Lemma vent_cases c p : exists q, same (ps_set_vent p (ps_vent p)) (ps_set_vent q (ps_vent p)) /\ keeps p q /\ ps_drv q = ps_drv p /\
  ps_press q = ps_press p /\
  let v0 := ps_vent p in
  let a := mk_a (a_count (vt_act v0)) (a_valve (vt_act v0)) (timer_tick (a_timer (vt_act v0))) in
  ps_vent q = mk_vt a (vt_tank v0) (vt_choice v0) (vt_saved v0) /\
  let first := vt_choice v0 =? 1 in
  let next_valve := if first then c_t1_valve c else Z.to_nat (vt_saved v0 mod 4) in
  (eval_venting c p = (ps_set_drv q (drv_valve (vt_tank v0) (a_valve a) false (ps_drv p)), p_idle) \/
   match act_run (vt_tank v0) next_valve (c_fill c) (c_close c) (c_max_vent c) a (ps_drv p) with
   | (Some (a', d'), started) =>
     let saved := if started && negb first then u32 (vt_saved v0 + 1) else vt_saved v0 in
     eval_venting c p = (ps_set_drv (ps_set_vent q (mk_vt a' (vt_tank v0) (vt_choice v0) saved)) d', p_venting)
   | (None, _) => eval_venting c p = (q, p_handling_fault) \/ (c_max_vent c <> 1 /\ eval_venting c p = (q, p_disabled))
   end).
Proof.
  unfold eval_venting. cbv zeta.
  match goal with |- context [vent_succeeded ?x] => pose proof (same_vs x) as S; destruct (vent_succeeded x) as [q ok] end.
  cbn [fst] in S. destruct S as (S1 & S2 & S3 & S4 & S5 & S6). cbn in S1, S2, S3, S4, S5, S6.
  assert (KQ : forall r, same q r -> same (ps_set_vent p (ps_vent p)) (ps_set_vent r (ps_vent p)) /\ keeps p r /\ ps_drv r = ps_drv p /\ ps_press r = ps_press p /\
     ps_vent r = mk_vt (mk_a (a_count (vt_act (ps_vent p))) (a_valve (vt_act (ps_vent p))) (timer_tick (a_timer (vt_act (ps_vent p))))) (vt_tank (ps_vent p)) (vt_choice (ps_vent p)) (vt_saved (ps_vent p))).
  { intros r (R1 & R2 & R3 & R4 & R5 & R6). unfold same, keeps. cbn. repeat split; congruence. }
  rewrite S6.
  destruct ok.
  { exists q. destruct (KQ q (same_refl q)) as (A & B & C & D & E). split; [exact A|]. split; [exact B|]. split; [exact C|]. split; [exact D|]. split; [exact E|]. left. reflexivity. }
  destruct (act_run _ _ _ _ _ _ _) as [[[a' d']|] st] eqn:AR.
  { exists q. destruct (KQ q (same_refl q)) as (A & B & C & D & E). split; [exact A|]. split; [exact B|]. split; [exact C|]. split; [exact D|]. split; [exact E|]. right. reflexivity. }
  destruct (Z.eqb_spec (c_max_vent c) 1) as [EM|EM].
  { exists q. destruct (KQ q (same_refl q)) as (A & B & C & D & E). split; [exact A|]. split; [exact B|]. split; [exact C|]. split; [exact D|]. split; [exact E|]. right. left. reflexivity. }
  match goal with |- context [if ?b then tank2_wants q else _] => pose proof (same_t2 q) as T; assert (T' : same q (fst (if b then tank2_wants q else (q, false)))) by (destruct b; [exact T|apply same_refl]); destruct (if b then tank2_wants q else (q, false)) as [q2 x] end.
  match goal with |- context [if ?b then ps_read Tank1Hot q2 else _] => pose proof (same_read Tank1Hot q2) as U; assert (U' : same q2 (fst (if b then ps_read Tank1Hot q2 else (q2, false)))) by (destruct b; [exact U|apply same_refl]); destruct (if b then ps_read Tank1Hot q2 else (q2, false)) as [q3 y] end.
  cbn [fst] in T', U'.
  exists q3. destruct (KQ q3 (same_trans _ _ _ T' U')) as (A & B & C & D & E). split; [exact A|]. split; [exact B|]. split; [exact C|]. split; [exact D|]. split; [exact E|]. right.
  destruct (x || y); [left|right]; auto.
Qed.

Lemma vent_next c p : In (snd (eval_venting c p)) [p_idle; p_venting; p_handling_fault; p_disabled].
Proof.
  destruct (vent_cases c p) as (q & _ & _ & _ & _ & _ & [H|H]); [rewrite H; cbn; auto|].
  destruct (act_run _ _ _ _ _ _ _) as [[[? ?]|] ?]; [rewrite H; cbn; auto|]. destruct H as [H|(_ & H)]; rewrite H; cbn; auto.
Qed.
Lemma vent_keeps c p : keeps p (fst (eval_venting c p)).
Proof.
  destruct (vent_cases c p) as (q & _ & K & _ & _ & _ & [H|H]); [rewrite H; exact K|].
  destruct (act_run _ _ _ _ _ _ _) as [[[? ?]|] ?]; [rewrite H; exact K|]. destruct H as [H|(_ & H)]; rewrite H; exact K.
Qed.

(** who asks for firing, and who for await_firing *)
Lemma eval_firing cc c s st p p' : evaluate cc c s st p = (p', p_firing) -> st <> p_firing ->
  st = p_await_firing /\ ps_until p = 0 /\ same (ps_set_drv p (fst (drv_set_schedule (c_sched c) (ps_drv p)))) p'.
Proof.
  intros H NF. unfold evaluate in H.
  destruct (Z.eqb_spec st p_idle). { inv_eval. destruct b; [discriminate|]. destruct (can_pressurizing _ _ _); [discriminate|]. destruct (can_await_pressurizing _ _ _); discriminate. }
  destruct (Z.eqb_spec st p_await_pressurizing). { inv_eval. destruct b; [discriminate|]. destruct (can_pressurizing _ _ _); discriminate. }
  destruct (Z.eqb_spec st p_pressurizing).
  { unfold eval_pressurizing in H. destruct (ps_until p <=? 1); [discriminate|]. inv_eval. destruct b; [discriminate|]. cbv zeta in H. destruct (s_threshold s); [discriminate|].
    destruct (negb _); [discriminate|]. destruct (fst (act_run _ _ _ _ _ _ _)) as [[? ?]|]; [discriminate|]. destruct (ps_read _ _) as [? []]; discriminate. }
  destruct (Z.eqb_spec st p_await_firing).
  { inv_eval. destruct b; [discriminate|]. destruct (Z.eqb_spec (ps_until p0) 0); [|discriminate]. injection H as <-.
    split; [assumption|]. destruct SF as (A & B & C & D & E & F). split; [congruence|]. unfold same. cbn. rewrite F. auto 10. }
  destruct (Z.eqb_spec st p_firing); [contradiction|].
  destruct (Z.eqb_spec st p_venting).
  { pose proof (vent_next c p) as V. rewrite H in V. cbn in V. unfold p_firing, p_await_firing, p_idle, p_venting, p_handling_fault, p_disabled in V. lia. }
  destruct (Z.eqb_spec st p_handling_fault). { inv_eval. repeat match type of H with context [if ?x then _ else _] => destruct x end; discriminate. }
  destruct (Z.eqb_spec st p_manual); discriminate.
Qed.

Lemma eval_await cc c s st p p' : evaluate cc c s st p = (p', p_await_firing) -> st <> p_await_firing ->
  st = p_pressurizing /\ 1 < ps_until p /\
  (s_threshold s = true \/
   (c_max_press c <= a_count (ps_press p) /\ snd (fault_read (ps_faults p' PressurizeFail)) = false)) /\
  ps_state p' = ps_state p /\ ps_until p' = ps_until p /\ ps_fired p' = ps_fired p.
Proof.
  intros H NF. unfold evaluate in H.
  destruct (Z.eqb_spec st p_idle). { inv_eval. destruct b; [discriminate|]. destruct (can_pressurizing _ _ _); [discriminate|]. destruct (can_await_pressurizing _ _ _); discriminate. }
  destruct (Z.eqb_spec st p_await_pressurizing). { inv_eval. destruct b; [discriminate|]. destruct (can_pressurizing _ _ _); discriminate. }
  destruct (Z.eqb_spec st p_pressurizing) as [ES|ES].
  { unfold eval_pressurizing in H. destruct (Z.leb_spec (ps_until p) 1) as [U|U]; [discriminate|]. split; [exact ES|]. split; [exact U|].
    inv_eval. destruct b; [discriminate|]. cbv zeta in H. destruct SF as (A & B & C & D & E & F).
    destruct (s_threshold s).
    - injection H as <-. split; [auto|]. cbn. auto.
    - destruct (negb _); [discriminate|].
      destruct (fst (act_run _ _ _ _ _ _ _)) as [[? ?]|] eqn:AR; [discriminate|].
      assert (MC : c_max_press c <= a_count (ps_press p)).
      { unfold act_run in AR. cbn [a_count a_valve a_timer] in AR. rewrite D in AR.
        destruct (drv_is_open _ _ _).
        - destruct (timer_tick _ =? 0); discriminate AR.
        - destruct (timer_tick _ =? 0); [|discriminate AR]. destruct (Z.leb_spec (c_max_press c) (a_count (ps_press p))); [assumption|discriminate AR]. }
      match type of H with context [ps_read PressurizeFail ?x] => pose proof (same_read PressurizeFail x) as SR; destruct (ps_read PressurizeFail x) as [p4 b] eqn:ER end.
      destruct b; [discriminate|]. injection H as <-. cbn [fst] in SR. destruct SR as (A' & B' & C' & _). cbn in A', B', C'.
      split; [right; split; [exact MC|]|split; [congruence|split; congruence]].
      unfold ps_read in ER. destruct (fault_read (ps_faults _ PressurizeFail)) as [f b] eqn:EF. injection ER as <- ->.
      cbn [ps_faults ps_set_faults]. unfold fupd at 1. cbn [fid_eq].
      clear - EF. unfold fault_read in *. set (f1 := fault_commands _) in *. injection EF as <- EB.
      assert (K : forall g, ft_unsignal g = false -> ft_prev_o g = ft_override g -> ft_prev_s g = ft_suppress g -> fault_commands g = g).
      { intros [] U O S. cbn in *. subst. unfold fault_commands. cbn. destruct ft_override; cbn; destruct ft_suppress; reflexivity. }
      assert (P : ft_unsignal f1 = false /\ ft_prev_o f1 = ft_override f1 /\ ft_prev_s f1 = ft_suppress f1).
      { unfold f1, fault_commands. cbv zeta. match goal with |- context [if ft_unsignal ?x then _ else _] => destruct (ft_unsignal x) eqn:EU end; cbn in *; auto. }
      destruct P as (P1 & P2 & P3). rewrite K by (cbn; assumption). cbn. exact EB. }
  destruct (Z.eqb_spec st p_await_firing); [contradiction|].
  destruct (Z.eqb_spec st p_firing). { inv_eval. destruct b; [discriminate|]. destruct (_ =? 0); discriminate. }
  destruct (Z.eqb_spec st p_venting).
  { pose proof (vent_next c p) as V. rewrite H in V. cbn in V. unfold p_firing, p_await_firing, p_idle, p_venting, p_handling_fault, p_disabled in V. lia. }
  destruct (Z.eqb_spec st p_handling_fault). { inv_eval. repeat match type of H with context [if ?x then _ else _] => destruct x end; discriminate. }
  destruct (Z.eqb_spec st p_manual); discriminate.
Qed.

(** the state objects' evaluate changes neither the state nor the counters *)
Lemma eval_keeps cc c s st p : keeps p (fst (evaluate cc c s st p)).
Proof.
  unfold evaluate.
  destruct (st =? p_idle). { pose proof (same_keeps _ _ (same_hf s p)) as S. destruct (can_handling_fault s p) as [q []]; [exact S|]. destruct (can_pressurizing _ _ _); [exact S|]. destruct (can_await_pressurizing _ _ _); exact S. }
  destruct (st =? p_await_pressurizing). { pose proof (same_keeps _ _ (same_hf s p)) as S. destruct (can_handling_fault s p) as [q []]; [exact S|]. destruct (can_pressurizing _ _ _); exact S. }
  destruct (st =? p_pressurizing).
  { unfold eval_pressurizing. destruct (_ <=? 1); [repeat split|]. pose proof (same_keeps _ _ (same_hf s p)) as S. destruct (can_handling_fault s p) as [q []]; [exact S|].
    cbv zeta. destruct (s_threshold s); [exact S|]. destruct (negb _); [exact S|]. destruct (fst (act_run _ _ _ _ _ _ _)) as [[? ?]|]; [exact S|].
    match goal with |- context [ps_read PressurizeFail ?x] => pose proof (same_keeps _ _ (same_read PressurizeFail x)) as SR; destruct (ps_read PressurizeFail x) as [p4 b] end.
    cbn [fst] in *. destruct b; cbn [fst]; exact (keeps_trans _ _ _ S SR). }
  destruct (st =? p_await_firing). { pose proof (same_keeps _ _ (same_hf s p)) as S. destruct (can_handling_fault s p) as [q []]; [exact S|]. destruct (_ =? 0); exact S. }
  destruct (st =? p_firing). { pose proof (same_keeps _ _ (same_hf s p)) as S. destruct (can_handling_fault s p) as [q []]; [exact S|]. destruct (_ =? 0); exact S. }
  destruct (st =? p_venting); [apply vent_keeps|].
  destruct (st =? p_handling_fault).
  { pose proof (same_keeps _ _ (same_cv s p)) as S. destruct (can_venting s p) as [q []]; [exact S|]. pose proof (same_keeps _ _ (same_hf s q)) as S2. destruct (can_handling_fault s q) as [q2 []]; exact (keeps_trans _ _ _ S S2). }
  destruct (st =? p_manual); repeat split.
Qed.
Lemma eval_state cc c s st p : ps_state (fst (evaluate cc c s st p)) = ps_state p.
Proof. apply eval_keeps. Qed.
Lemma eval_fired cc c s st p : ps_fired (fst (evaluate cc c s st p)) = ps_fired p.
Proof. apply eval_keeps. Qed.

Lemma enter_state st p : ps_state (enter st p) = ps_state p.
Proof.
  unfold enter. destruct (st =? p_pressurizing); [reflexivity|]. destruct (st =? p_firing); [reflexivity|]. destruct (st =? p_venting).
  - pose proof (same_dft p) as S. destruct (determine_faulted_tank p) as [q t]. apply S.
  - destruct (_ || _); reflexivity.
Qed.

(** the state after a cycle is the one asked for, if it may be entered, and disabled otherwise *)
Lemma ctrl_state cc c s p : let q := counted cc s p in let '(p3, next) := evaluate cc c s (ps_state p) q in
  ps_state (prop_ctrl cc c s p) = if next =? ps_state p then ps_state p else if snd (can_enter c s next p3) then next else p_disabled.
Proof.
  cbv zeta. rewrite ctrl_unfold. cbv zeta. destruct (counted_spec cc s p) as (A & _). cbv zeta in A. rewrite A.
  pose proof (eval_state cc c s (ps_state p) (counted cc s p)) as E. destruct (evaluate _ _ _ _ _) as [p3 next]. cbn [fst] in E.
  destruct (next =? ps_state p); [congruence|]. destruct (can_enter c s next p3) as [p4 []]; cbn [snd]; [rewrite enter_state|]; reflexivity.
Qed.

(** ** C30 *)
Lemma ctrl_to_await cc c s p : ps_state (prop_ctrl cc c s p) = p_await_firing -> ps_state p <> p_await_firing ->
  ps_state p = p_pressurizing /\ s_func s = true /\ valid_schedule c (ps_until (prop_ctrl cc c s p)) /\
  (s_threshold s = true \/
   (c_max_press c <= a_count (ps_press p) /\ snd (fault_read (ps_faults (prop_ctrl cc c s p) PressurizeFail)) = false)).
Proof.
  intros H N. rewrite ctrl_unfold in *. cbv zeta in *. destruct (counted_spec cc s p) as (A & B & C & D & E & F). cbv zeta in *. rewrite A in *.
  remember (counted cc s p) as q. clear Heqq.
  pose proof (eval_state cc c s (ps_state p) q) as ES. destruct (evaluate cc c s (ps_state p) q) as [p3 next] eqn:EV. cbn [fst] in ES.
  destruct (Z.eqb_spec next (ps_state p)); [congruence|].
  pose proof (same_can c s next p3) as SC. destruct (can_enter c s next p3) as [p4 ok] eqn:EC. cbn [fst] in SC.
  destruct ok; [rewrite enter_state in H; cbn in H; subst next|discriminate H].
  apply eval_await in EV; [|assumption]. destruct EV as (S1 & S2 & S3 & S4 & S5 & S6).
  cbn in EC. injection EC as <- EC. unfold can_await_firing in EC. apply andb_prop in EC. destruct EC as (EC & F1). apply andb_prop in EC. destruct EC as (V & _).
  unfold enter. cbn. split; [exact S1|]. split; [exact F1|]. split.
  - unfold validate_schedule, is_valid_schedule in V. apply andb_prop in V. destruct V as (V1 & V2). split; [|apply Z.ltb_lt; exact V2].
    rewrite forallb_forall in V1. apply Forall_forall. intros x Hx. apply Z.leb_le. auto.
  - rewrite D in S3. exact S3.
Qed.

(** a firing is started (the counter of firings moves) only from await_firing, at the countdown's end, with power *)
Lemma ctrl_fires cc c s p : ps_fired (prop_ctrl cc c s p) <> ps_fired p ->
  ps_state p = p_await_firing /\ ps_until p <= 1 /\ s_func s = true /\ ps_state (prop_ctrl cc c s p) = p_firing /\
  ps_drv (prop_ctrl cc c s p) = drv_start (fst (drv_set_schedule (c_sched c) (ps_drv p))).
Proof.
  intros H. rewrite ctrl_unfold in *. cbv zeta in *. destruct (counted_spec cc s p) as (A & B & C & D & E & F). cbv zeta in *. rewrite A in *.
  remember (counted cc s p) as q. clear Heqq.
  pose proof (eval_state cc c s (ps_state p) q) as ES. pose proof (eval_fired cc c s (ps_state p) q) as EF.
  destruct (evaluate cc c s (ps_state p) q) as [p3 next] eqn:EV. cbn [fst] in ES, EF.
  destruct (Z.eqb_spec next (ps_state p)); [congruence|].
  pose proof (same_can c s next p3) as SC. destruct (can_enter c s next p3) as [p4 ok] eqn:EC. cbn [fst] in SC.
  destruct SC as (SC1 & SC2 & SC3 & SC4 & SC5 & SC6).
  destruct ok; [|cbn in H; congruence].
  assert (NX : next = p_firing).
  { destruct (Z.eqb_spec next p_firing) as [Q|Q]; [exact Q|]. exfalso. apply H. unfold enter.
    destruct (next =? p_pressurizing); [cbn; congruence|]. destruct (Z.eqb_spec next p_firing); [contradiction|].
    destruct (next =? p_venting).
    - pose proof (same_dft (ps_set_state p4 next)) as S. destruct (determine_faulted_tank _) as [r t]. destruct S as (_ & _ & S & _). cbn in *. congruence.
    - destruct (_ || _); cbn; congruence. }
  subst next. apply eval_firing in EV; [|congruence]. destruct EV as (E1 & E2 & E3). destruct E3 as (_ & _ & _ & _ & _ & E3). cbn in E3.
  cbn in EC. injection EC as <- EC. unfold can_firing in EC. apply andb_prop in EC. destruct EC as (_ & F1).
  split; [exact E1|]. split; [destruct (Z.ltb_spec 0 (ps_until p)); lia|]. split; [exact F1|]. unfold enter. cbn. rewrite E3, F. auto.
Qed.

Lemma await_history p0 l p : prun p0 l p -> ps_state p0 <> p_await_firing -> Forall (fun y => y_who y <> Ground) l ->
  ps_state p = p_await_firing ->
  exists l1 y l2, l = l1 ++ y :: l2 /\ pressurized y /\ Forall (fun z => ps_state (y_before z) = p_await_firing) l1.
Proof.
  induction 1 as [|l p who p1 cc c s HR IH HB]; intros N0 NG HS; [contradiction|].
  inversion_clear NG as [|? ? G1 G2]. cbn in G1.
  destruct (Z.eq_dec (ps_state p1) p_await_firing) as [E|E].
  - assert (ps_state p = p_await_firing).
    { destruct HB as (_ & _ & _ & _ & W). destruct who; [congruence| |congruence]. rewrite E in W. destruct W as [W|(W & _)]; discriminate. }
    destruct (IH N0 G2 H) as (l1 & y & l2 & -> & PY & FA). exists (mk_pc who cc c s p1 (prop_ctrl cc c s p1) :: l1), y, l2.
    split; [reflexivity|]. split; [exact PY|]. constructor; [exact E|exact FA].
  - destruct (ctrl_to_await cc c s p1 HS E) as (A & B & C & D).
    exists [], (mk_pc who cc c s p1 (prop_ctrl cc c s p1)), l. split; [reflexivity|]. split; [|constructor]. exact (conj A (conj HS (conj B (conj C D)))).
Qed.

Lemma firing_history p0 l p who p1 cc c s : prun p0 l p -> ps_state p0 <> p_await_firing ->
  Forall (fun y => y_who y <> Ground) l -> who <> Ground -> between who p p1 ->
  ps_fired (prop_ctrl cc c s p1) <> ps_fired p1 ->
  ps_until p1 <= 1 /\ s_func s = true /\
  exists l1 y l2, l = l1 ++ y :: l2 /\ pressurized y /\ Forall (fun z => ps_state (y_before z) = p_await_firing) l1.
Proof.
  intros HR N0 FG NG HB HF. destruct (ctrl_fires cc c s p1 HF) as (A & B & C & _). split; [exact B|]. split; [exact C|].
  apply (await_history p0 l p HR N0 FG). destruct HB as (_ & _ & _ & _ & W). destruct who; [congruence| |congruence]. rewrite A in W. destruct W as [W|(W & _)]; discriminate.
Qed.

Lemma enters_firing cc c s p : ps_state (prop_ctrl cc c s p) = p_firing -> ps_state p <> p_firing -> ps_fired (prop_ctrl cc c s p) <> ps_fired p.
Proof.
  intros H N. rewrite ctrl_unfold in *. cbv zeta in *. destruct (counted_spec cc s p) as (A & B & C & D & E & F). cbv zeta in *. rewrite A in *.
  remember (counted cc s p) as q. clear Heqq.
  pose proof (eval_state cc c s (ps_state p) q) as ES. pose proof (eval_fired cc c s (ps_state p) q) as EF.
  destruct (evaluate cc c s (ps_state p) q) as [p3 next] eqn:EV. cbn [fst] in ES, EF.
  destruct (Z.eqb_spec next (ps_state p)); [congruence|].
  pose proof (same_can c s next p3) as SC. destruct (can_enter c s next p3) as [p4 ok] eqn:EC. cbn [fst] in SC.
  destruct SC as (SC1 & SC2 & SC3 & SC4 & SC5 & SC6).
  destruct ok; [|discriminate H]. rewrite enter_state in H. cbn in H. subst next. unfold enter.
  change (p_firing =? p_pressurizing) with false. change (p_firing =? p_firing) with true. cbn. rewrite SC3, EF, C.
  unfold u32, uwrap. pose proof (Z.mod_pos_bound (ps_fired p + 1) (2 ^ 32) ltac:(lia)). intros X. rewrite <- X in H at 1. rewrite X in H.
  pose proof (Z.div_mod (ps_fired p + 1) (2 ^ 32) ltac:(lia)) as DM. rewrite X in DM. lia.
Qed.
